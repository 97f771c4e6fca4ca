(** * TextSpec: how unit strings and numerals are written

    The documented grammar (units.py:488-501 docstring): factors separated by *,
    at most one / before the bottom half, an exponent after ^.  No function of
    the model is used, only its data types. *)
From Coq Require Import String Ascii List ZArith QArith Qcanon Bool.
From Verif Require Import Py UnitsStruct.
Import ListNotations.
Local Open Scope string_scope.
Local Open Scope list_scope.

(** ** Numerals *)

(** Decimal digits, most significant first. *)
Definition digits_ok (l : list nat) : Prop := forall d, In d l -> (d <= 9)%nat.
Fixpoint digits_text (l : list nat) : string :=
  match l with nil => EmptyString | d :: l' => String (ascii_of_nat (48 + d)) (digits_text l') end.
Definition digits_val (l : list nat) : Z := fold_left (fun a d => 10 * a + Z.of_nat d)%Z l 0%Z.

(** sign, whole digits, digits after the point if there is one, and the decimal
    exponent if there is one.  The sign is [None] when not written. *)
Record numeral := Numeral {
  nsign : option bool;                       (* Some true: minus, Some false: plus *)
  nwhole : list nat;
  nfrac : option (list nat);
  nexp : option (option bool * list nat) }.
Definition sign_text (s : option bool) : string :=
  match s with None => "" | Some true => "-" | Some false => "+" end.
Definition sign_val (s : option bool) : Z := match s with Some true => -1 | _ => 1 end.
Definition num_text (n : numeral) : string :=
  sign_text (nsign n) +++ digits_text (nwhole n)
  +++ (match nfrac n with None => "" | Some f => "." +++ digits_text f end)
  +++ (match nexp n with None => "" | Some (s, e) => "e" +++ sign_text s +++ digits_text e end).
Definition frac_digits (n : numeral) : list nat := match nfrac n with None => nil | Some f => f end.
Definition num_val (n : numeral) : Q :=
  inject_Z (sign_val (nsign n) * digits_val (nwhole n ++ frac_digits n))
  * Qpower (inject_Z 10)
      ((match nexp n with None => 0 | Some (s, e) => sign_val s * digits_val e end)
       - Z.of_nat (List.length (frac_digits n))).
Definition num_ok (n : numeral) : Prop :=
  digits_ok (nwhole n) /\ digits_ok (frac_digits n) /\ nwhole n ++ frac_digits n <> nil /\
  match nexp n with None => True | Some (_, e) => digits_ok e /\ e <> nil end.

(** ** Unit strings *)

(** Blanks: tab, line feed, vertical tab, form feed, carriage return, the four
    separators 28-31 and the space, as for Python's str.isspace on ASCII. *)
Definition blanks : list ascii := ["009"; "010"; "011"; "012"; "013"; "028"; "029"; "030"; "031"; " "]%char.
Definition blank (c : ascii) : bool := existsb (Ascii.eqb c) blanks.
Fixpoint all_blank (s : string) : bool :=
  match s with EmptyString => true | String c s' => blank c && all_blank s' end.
(** [t] is [s] without the blanks around it. *)
Definition trims (s t : string) : Prop :=
  exists p q, s = p +++ t +++ q /\ all_blank p = true /\ all_blank q = true /\
    (t = EmptyString \/ ((exists c r, t = String c r /\ blank c = false) /\ exists r c, t = r +++ String c EmptyString /\ blank c = false)).

(** Characters that separate the parts of a unit string, and blanks. *)
Definition plain_char (c : ascii) : bool :=
  negb (Ascii.eqb c "/" || Ascii.eqb c "*" || Ascii.eqb c "^" || blank c).
Fixpoint plain_text (s : string) : bool :=
  match s with EmptyString => true | String c s' => plain_char c && plain_text s' end.

(** One factor: a name and, if written, the numeral after ^. *)
Definition factor := (string * option numeral)%type.
Definition factor_ok (f : factor) : Prop :=
  fst f <> EmptyString /\ plain_text (fst f) = true /\
  match snd f with None => True | Some n => num_ok n end.
Definition factor_text (f : factor) : string :=
  match snd f with None => fst f | Some n => fst f +++ "^" +++ num_text n end.
(** The unit a factor stands for. *)
Definition factor_unit (f : factor) : string * Qc :=
  (fst f, match snd f with None => Q2Qc 1 | Some n => Q2Qc (num_val n) end).

Fixpoint stars (l : list string) : string :=
  match l with nil => "" | [x] => x | x :: l' => x +++ "*" +++ stars l' end.
Definition unit_text (top bot : list factor) : string :=
  stars (map factor_text top)
  +++ (match bot with nil => "" | _ => "/" +++ stars (map factor_text bot) end).

Fixpoint count_char (c : ascii) (s : string) : nat :=
  match s with
  | EmptyString => O
  | String a s' => ((if Ascii.eqb a c then 1 else 0) + count_char c s')%nat
  end.

(** ** Reading a unit string

    What a text may be understood as: blanks around a half are ignored, an exponent
    may be surrounded by blanks, have single underscores between digits and a
    capital E, as Python's float() allows. *)
Fixpoint squeeze (s : string) : string :=
  match s with
  | EmptyString => EmptyString
  | String c s' =>
      if Ascii.eqb c "_" then squeeze s'
      else String (if Ascii.eqb c "E" then "e"%char else c) (squeeze s')
  end.
Definition number_reads (s : string) (q : Qc) : Prop :=
  exists t n, trims s t /\ num_ok n /\ squeeze t = num_text n /\ q = Q2Qc (num_val n).
Definition factor_reads (s : string) (x : bu) : Prop :=
  count_char "^" (bname x) = O /\
  ((s = bname x /\ ev (bexp x) = Q2Qc 1) \/
   exists e, s = bname x +++ "^" +++ e /\ count_char "^" e = O /\ number_reads e (ev (bexp x))).
Definition half_reads (s : string) (l : half) : Prop :=
  exists parts, parts <> nil /\ trims s (stars parts) /\ Forall2 factor_reads parts l /\
    (forall p, In p parts -> count_char "*" p = O).
Definition unit_reads (s : string) (top bot : half) : Prop :=
  (count_char "/" s = O /\ half_reads s top /\ bot = nil) \/
  (exists t b, s = t +++ "/" +++ b /\ count_char "/" t = O /\ count_char "/" b = O /\
     half_reads t top /\ half_reads b bot).

(** ** Displaying units *)

(** An exponent tagged int has an integral value. *)
Definition expo_wf (e : expo) : Prop := isf e = false -> Qden (this (ev e)) = 1%positive.
(** The value is a whole number, or its first decimal is not 0. *)
Definition first_decimal_kept (e : expo) : Prop :=
  Qden (this (ev e)) = 1%positive \/
  (Zpos (Qden (this (ev e))) <= 10 * (Z.abs (Qnum (this (ev e))) mod Zpos (Qden (this (ev e)))))%Z.

(** UTF-8 text of the Unicode superscript digits: U+2070, U+00B9, U+00B2, U+00B3,
    U+2074 ... U+2079. *)
Definition utf8 (cp : N) : string :=
  (if N.ltb cp 2048
   then String (ascii_of_N (192 + cp / 64)) (String (ascii_of_N (128 + cp mod 64)) "")
   else String (ascii_of_N (224 + cp / 4096))
         (String (ascii_of_N (128 + (cp / 64) mod 64)) (String (ascii_of_N (128 + cp mod 64)) "")))%N.
Definition sup_digit (d : nat) : string :=
  match d with
  | 1%nat => utf8 185 | 2%nat => utf8 178 | 3%nat => utf8 179
  | _ => utf8 (8304 + N.of_nat d)
  end.
Fixpoint sup_digits (l : list nat) : string :=
  match l with nil => "" | d :: l' => sup_digit d +++ sup_digits l' end.
(** Only plain decimals occur in displayed exponents. *)
Definition sup_num (n : numeral) : string :=
  sign_text (nsign n) +++ sup_digits (nwhole n)
  +++ (match nfrac n with None => "" | Some f => "." +++ sup_digits f end).
Definition shown (x : bu) (t : string) : Prop :=
  (ev (bexp x) = Q2Qc 1 /\ t = bname x) \/
  (ev (bexp x) <> Q2Qc 1 /\ exists n, num_ok n /\ nexp n = None /\ (num_val n == this (ev (bexp x)))%Q /\ t = bname x +++ sup_num n).
Definition negative (x : bu) : bool := Z.ltb (Qnum (this (ev (bexp x)))) 0.
Definition flip_bu (x : bu) : bu := BU (bname x) (eopp (bexp x)).
Fixpoint spaced (l : list string) : string :=
  match l with nil => "" | [x] => x | x :: l' => x +++ " * " +++ spaced l' end.
(** Exponents moved from the bottom to the top are always written out, even when 1. *)
Definition shown_moved (x : bu) (t : string) : Prop :=
  exists n, num_ok n /\ nexp n = None /\ (num_val n == this (ev (bexp x)))%Q /\ t = bname x +++ sup_num n.
(** Units whose exponent can be displayed without loss. *)
Definition showable (x : bu) : Prop := expo_wf (bexp x) /\ first_decimal_kept (bexp x).
