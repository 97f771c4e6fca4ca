(** * FloatSpec: exponents that binary64 handles exactly

    Stated without the model's functions: which units there are to expand, how
    much there is to expand, and how many bits that takes. *)
From Coq Require Import String Ascii List ZArith Qcanon Bool Reals.
From Verif Require Import Py Num UnitsStruct Units.
Import ListNotations.
Local Open Scope string_scope.
Local Open Scope list_scope.
Local Open Scope R_scope.

(** A multiple of 2^-k. *)
Definition dyadic (k : nat) (e : expo) : Prop := exists z : Z, QcR (ev e) = IZR z / 2 ^ k.
(** A number with at most 53 bits. *)
Definition short (e : expo) : Prop := exists k, dyadic k e /\ Rabs (QcR (ev e)) * 2 ^ k <= 2 ^ 53 /\ (k <= 1073)%nat.

(** The name without an SI prefix, for the names where it matters. *)
Definition stem (n : string) : string :=
  match n with
  | String c r =>
      if existsb (Ascii.eqb c) ["m"; "c"; "d"; "k"; "M"]%char
         && existsb (String.eqb r) ["V"; "W"; "J"; "Pa"; "psi"; "cP"; "C"; "kg"; "g"; "A"; "lbf"]
      then r else n
  | EmptyString => n
  end.
Definition look (l : list (string * R)) (d : R) (n : string) : R :=
  match find (fun x => String.eqb (fst x) n) l with Some x => snd x | None => d end.
(** How many base units one of them is made of, counting powers; how many kg, g, A or lbf. *)
Definition width : string -> R :=
  look [("V", 7); ("W", 6); ("J", 5); ("Pa", 4); ("psi", 3); ("cP", 3); ("C", 2)] 1.
Definition seeds : string -> R :=
  look [("V", 2); ("W", 1); ("J", 1); ("Pa", 1); ("psi", 1); ("cP", 1); ("C", 1); ("kg", 1); ("g", 1); ("A", 1); ("lbf", 1)] 0.
Fixpoint amount (mu : string -> R) (l : half) : R :=
  match l with nil => 0 | x :: l' => Rabs (QcR (ev (bexp x))) * mu (stem (bname x)) + amount mu l' end.

(** Multiples of 2^-k, with at most n/2 seeds, whose total width fits. *)
Record modest (k n : nat) (l : half) : Prop := {
  mo_dyadic : forall x, In x l -> dyadic k (bexp x);
  mo_seeds : 2 * amount seeds l <= INR n;
  mo_width : exists B, 3 <= B /\ amount width l <= B /\ B * 2 ^ k * 16 ^ (n + 1) <= 2 ^ 53
}.

(** The units of a value, with their exponents. *)
Definition parts {T} (a : pyval T) : half :=
  match a with
  | VUnit u => [BU (un u) (ue u)]
  | VMulti m => mtop m ++ mbot m
  | _ => nil
  end.
(** The exponents times p. *)
Definition raised (p : expo) (l : half) : half := map (fun x => BU (bname x) (emul (bexp x) p)) l.
(** The name of a Unit object holds no exponent of its own. *)
Definition bare {T} (a : pyval T) : Prop := match a with VUnit u => ~ In "^"%char (list_ascii_of_string (un u)) | _ => True end.
(** The sum of the exponents. *)
Fixpoint total (l : half) : R := match l with nil => 0 | x :: l' => QcR (ev (bexp x)) + total l' end.
(** Exponents that stay exact in a conversion: multiples of 2^-k, of units whose
    names hold no exponent, with a total width of at most 2^(49-k). *)
Record fits (k : nat) (l : half) : Prop := {
  fi_dyadic : forall x, In x l -> dyadic k (bexp x);
  fi_names : forall x, In x l -> ~ In "^"%char (list_ascii_of_string (bname x));
  fi_bits : (k <= 51)%nat;
  fi_width : 16 * amount width l * 2 ^ k <= 2 ^ 53
}.
(** An exponent rounded to binary64. *)
Definition rounded (r : Qc -> Qc) (l : half) : half := map (fun x => BU (bname x) (eflt (r (ev (bexp x))))) l.
