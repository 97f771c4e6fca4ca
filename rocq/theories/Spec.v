(** * Spec: what unit expressions mean

    Nothing here refers to the functions of the model; only its data types are
    used.  A unit system gives every unit name a positive size; an expression
    denotes its value times the sizes of its units raised to their exponents. *)
From Coq Require Import String Ascii List ZArith QArith Qcanon Bool Reals Qreals.
From Verif Require Import Py Num UnitsData UnitsStruct Units.
Import ListNotations.
Local Open Scope string_scope.
Local Open Scope list_scope.
Local Open Scope R_scope.

Definition usys := string -> R.
Definition positive (w : usys) : Prop := forall n, 0 < w n.

(** Size of a list of units, of a fraction, of a value. *)
Fixpoint usize (w : usys) (l : half) : R :=
  match l with
  | nil => 1
  | x :: l' => Rpower (w (bname x)) (QcR (ev (bexp x))) * usize w l'
  end.
Definition msize (w : usys) (top bot : half) : R := usize w top / usize w bot.

Definition qty (w : usys) (v : pyval R) : option R :=
  match v with
  | VNum x => Some x
  | VUnit u => Some (uv u * Rpower (w (un u)) (QcR (ev (ue u))))
  | VMulti m => Some (mv m * msize w (mtop m) (mbot m))
  | VNone | VObj => None
  end.

(** Total exponent of the name [n] in a list. *)
Fixpoint net (n : string) (l : half) : Qc :=
  match l with
  | nil => qc 0
  | x :: l' => if String.eqb (bname x) n then (ev (bexp x) + net n l')%Qc else net n l'
  end.

(** SI prefixes and the symbols they are put on. *)
Definition si_prefixes : list (ascii * R) :=
  [("u"%char, / 1000000); ("m"%char, / 1000); ("c"%char, / 100); ("d"%char, / 10);
   ("k"%char, 1000); ("M"%char, 1000000)].
Definition si_symbols : list string :=
  ["m"; "g"; "s"; "A"; "K"; "mol"; "J"; "Pa"; "N"; "L"; "W"; "V"; "C"; "F"; "R"].

(** A unit system is coherent when it respects the SI prefixes and the defining
    equations of the derived units.  C is the coulomb. *)
Record coherent (w : usys) : Prop := {
  co_pos : positive w;
  co_prefix : forall p f s, In (p, f) si_prefixes -> In s si_symbols ->
                            w (String p s) = f * w s;
  co_Pa : w "Pa" = w "kg" / (w "m" * w "s" ^ 2);
  co_J : w "J" = w "kg" * w "m" ^ 2 / w "s" ^ 2;
  co_W : w "W" = w "J" / w "s";
  co_psi : w "psi" = w "lbf" / w "in" ^ 2;
  co_cP : w "cP" = w "g" / (w "m" * w "s");
  co_C : w "C" = w "A" * w "s";
  co_V : w "V" = w "kg" * w "m" ^ 2 / (w "s" ^ 3 * w "A")
}.

(** Names whose first letter cannot be taken for a wrong prefix: one letter; a
    first letter other than m c d k M; min, cP, mol; or an SI prefix on a symbol.
    Excluded are names such as mile, day and mmHg. *)
Definition prefix_letters : list ascii := ["m"; "c"; "d"; "k"; "M"]%char.
Definition admissible (n : string) : Prop :=
  (exists c, n = String c EmptyString) \/
  (exists c r, n = String c r /\ ~ In c prefix_letters) \/
  In n ["min"; "cP"; "mol"] \/
  (exists p s, In p prefix_letters /\ In s si_symbols /\ n = String p s).
Definition adm_half (l : half) : Prop := forall x, In x l -> admissible (bname x).

(** A name without an SI prefix: nothing is to be stripped from it. *)
Definition unprefixed (n : string) : Prop :=
  (exists c, n = String c EmptyString) \/
  (exists c r, n = String c r /\ ~ In c prefix_letters) \/
  In n ["min"; "cP"; "mol"; "kg"].
Definition unprefixed_half (l : half) : Prop := forall x, In x l -> unprefixed (bname x).

(** Size of the prefix of a name, 1 for names without prefix; kg is taken whole.
    The product of the prefix sizes of a unit is [msize pscale top bot]. *)
Definition pscale (n : string) : R :=
  match n with
  | String c (String _ _) =>
      if in_dec string_dec n ["min"; "cP"; "mol"; "kg"] then 1
      else if Ascii.eqb c "m" then / 1000
      else if Ascii.eqb c "c" then / 100
      else if Ascii.eqb c "d" then / 10
      else if Ascii.eqb c "k" then 1000
      else if Ascii.eqb c "M" then 1000000
      else 1
  | _ => 1
  end.

Definition adm_multi (m : multi_obj R) : Prop := adm_half (mtop m) /\ adm_half (mbot m).
Definition unp_multi (m : multi_obj R) : Prop := unprefixed_half (mtop m) /\ unprefixed_half (mbot m).

(** Unit objects that a constructor call can return. *)
Definition built (u : unit_obj R) : Prop := exists (v : R) n e, mk_unit (uc u) v n e = Ok u.

(** Numbers, and objects carrying admissible units. *)
Definition good (v : pyval R) : Prop :=
  match v with
  | VNum _ => True
  | VUnit u => admissible (un u) /\ built u
  | VMulti m => adm_multi m
  | VNone | VObj => False
  end.

(** Unit-carrying objects. *)
Definition is_quantity (v : pyval R) : Prop :=
  match v with VUnit u => built u | VMulti _ => True | _ => False end.

(** The number in front of the unit. *)
Definition value (v : pyval R) : R :=
  match v with VNum x => x | VUnit u => uv u | VMulti m => mv m | _ => 0 end.

(** The unit of an object as written: names with the values of their exponents. *)
Definition shape (v : pyval R) : list (string * Qc) * list (string * Qc) :=
  let f := map (fun x => (bname x, ev (bexp x))) in
  match v with
  | VUnit u => ([(un u, ev (ue u))], nil)
  | VMulti m => (f (mtop m), f (mbot m))
  | _ => (nil, nil)
  end.

(** In a list, every name carries a nonzero exponent at most once. *)
Definition once (l : half) : Prop :=
  forall i j u v, i <> j -> nth_error l i = Some u -> nth_error l j = Some v -> bname u = bname v ->
    ev (bexp u) = qc 0 \/ ev (bexp v) = qc 0.

(** The derived units. *)
Definition derived_names : list string := ["Pa"; "J"; "W"; "psi"; "cP"; "C"; "V"].

(** ** Sizes of the actual units, in SI base units

    Witness that coherent systems exist, and the independent reference for
    conversions (international yard and pound, the conventional values the
    library itself quotes for BTU and lbf). *)
Definition si_base : list (string * Q) :=
  [("m", 1); ("g", 1 # 1000); ("s", 1); ("A", 1); ("K", 1); ("mol", 1); ("J", 1);
   ("Pa", 1); ("N", 1); ("L", 1 # 1000); ("W", 1); ("V", 1); ("C", 1);
   ("F", 5 # 9); ("R", 5 # 9)]%Q.
Definition si_other : list (string * Q) :=
  [("min", 60); ("hr", 3600); ("day", 86400);
   ("ft", 3048 # 10000); ("in", 254 # 10000); ("yd", 9144 # 10000);
   ("mile", 1609344 # 1000);
   ("lb", 45359237 # 100000000); ("BTU", 1055056 # 1000);
   ("lbf", 444822 # 100000);
   ("psi", (444822 # 100000) / ((254 # 10000) * (254 # 10000)));
   ("atm", 101325); ("bar", 100000); ("mmHg", 133322 # 1000);
   ("cP", 1 # 1000); ("acre", 4046873 # 1000)]%Q.
Definition si_prefix_q : list (ascii * Q) :=
  [("u"%char, 1 # 1000000); ("m"%char, 1 # 1000); ("c"%char, 1 # 100); ("d"%char, 1 # 10);
   ("k"%char, 1000); ("M"%char, 1000000)]%Q.
Definition si_table : list (string * Q) :=
  flat_map (fun pf => map (fun sx => (String (fst pf) (fst sx), (snd pf * snd sx)%Q)) si_base) si_prefix_q
  ++ si_base ++ si_other.
Definition si (n : string) : R :=
  match dict_get si_table n with Some x => Q2R x | None => 1 end.
