(** * ConvSpec: what conversions should mean

    Sizes of the non-SI units and the physical dimension of every unit name.  No
    function of the model is used. *)
From Coq Require Import String Ascii List ZArith QArith Qcanon Bool Reals Qreals.
From Verif Require Import Py Num UnitsData UnitsStruct Units Spec.
Import ListNotations.
Local Open Scope string_scope.
Local Open Scope list_scope.
Local Open Scope R_scope.

(** One [n] is [q] times one [s].  The values are the usual definitions, with the
    six-digit values the library quotes for lb, lbf and BTU.  F and R are degrees
    (temperature differences). *)
Definition multiples : list (string * (string * Q)) :=
  [("ft", ("m", 3048 # 10000)); ("in", ("m", 254 # 10000)); ("yd", ("m", 9144 # 10000));
   ("min", ("s", 60 # 1)); ("hr", ("s", 3600 # 1)); ("lb", ("kg", 453592 # 1000000));
   ("BTU", ("J", 1055056 # 1000)); ("bar", ("Pa", 100000 # 1)); ("atm", ("Pa", 101325 # 1));
   ("lbf", ("N", 444822 # 100000)); ("R", ("K", 5 # 9)); ("F", ("K", 5 # 9))].

(** Unit systems in which the multiples, the litre and the acre have their sizes. *)
Record physical (w : usys) : Prop := {
  ph_coherent : coherent w;
  ph_multiples : forall n s q, In (n, (s, q)) multiples -> w n = Q2R q * w s;
  ph_L : w "L" = / 1000 * w "m" ^ 3;
  ph_acre : w "acre" = Q2R (4046873 # 1000) * w "m" ^ 2
}.

(** ** Dimensions: exponents of mass, length, time, temperature, current, amount *)
Inductive base := DMass | DLength | DTime | DTemp | DCurrent | DAmount.
Definition dimvec := base -> Z.
Definition dv (m l t k i a : Z) : dimvec := fun b =>
  match b with DMass => m | DLength => l | DTime => t | DTemp => k | DCurrent => i | DAmount => a end.
Definition dim_symbols : list (string * dimvec) :=
  [("m", dv 0 1 0 0 0 0); ("g", dv 1 0 0 0 0 0); ("s", dv 0 0 1 0 0 0); ("A", dv 0 0 0 0 1 0);
   ("K", dv 0 0 0 1 0 0); ("mol", dv 0 0 0 0 0 1); ("J", dv 1 2 (-2) 0 0 0); ("Pa", dv 1 (-1) (-2) 0 0 0);
   ("N", dv 1 1 (-2) 0 0 0); ("L", dv 0 3 0 0 0 0); ("W", dv 1 2 (-3) 0 0 0); ("V", dv 1 2 (-3) 0 (-1) 0);
   ("C", dv 0 0 1 0 1 0); ("F", dv 0 0 0 1 0 0); ("R", dv 0 0 0 1 0 0)]%Z.
Definition dim_others : list (string * dimvec) :=
  [("min", dv 0 0 1 0 0 0); ("hr", dv 0 0 1 0 0 0); ("day", dv 0 0 1 0 0 0);
   ("ft", dv 0 1 0 0 0 0); ("in", dv 0 1 0 0 0 0); ("yd", dv 0 1 0 0 0 0); ("mile", dv 0 1 0 0 0 0);
   ("lb", dv 1 0 0 0 0 0); ("BTU", dv 1 2 (-2) 0 0 0); ("lbf", dv 1 1 (-2) 0 0 0);
   ("psi", dv 1 (-1) (-2) 0 0 0); ("atm", dv 1 (-1) (-2) 0 0 0); ("bar", dv 1 (-1) (-2) 0 0 0);
   ("mmHg", dv 1 (-1) (-2) 0 0 0); ("cP", dv 1 (-1) (-1) 0 0 0); ("acre", dv 0 2 0 0 0 0)]%Z.
Definition dim_table : list (string * dimvec) :=
  flat_map (fun p => map (fun s => (String p (fst s), snd s)) dim_symbols) ["u"; "m"; "c"; "d"; "k"; "M"]%char
  ++ dim_symbols ++ dim_others.
(** Unknown names are dimensionless. *)
Definition udim (n : string) (b : base) : Z :=
  match dict_get dim_table n with Some d => d b | None => 0%Z end.
Definition known_name (n : string) : Prop := dict_get dim_table n <> None.
Definition hdim (l : half) (b : base) : Qc :=
  fold_right (fun x a => (ev (bexp x) * qc (udim (bname x) b) + a)%Qc) (qc 0) l.
(** The dimension of a unit. *)
Definition mdim (top bot : half) (b : base) : Qc := (hdim top b - hdim bot b)%Qc.

(** A name made of [t] and possibly an SI prefix that the library strips. *)
Definition prefixed_name (t n : string) : Prop :=
  exists p, In p [""; "m"; "c"; "d"; "k"; "M"] /\ n = p +++ t.
(** Temperature degrees occur with exponent 1 only. *)
Definition degrees_linear (l : half) : Prop :=
  forall x t, In x l -> In t ["K"; "R"; "F"] -> prefixed_name t (bname x) -> ev (bexp x) = qc 1.
(** No psi and no coulomb stands directly after a derived unit. *)
Definition psi_first (l : half) : Prop :=
  forall i x y d, nth_error l i = Some x -> nth_error l (S i) = Some y ->
    In d derived_names -> prefixed_name d (bname x) ->
    ~ prefixed_name "psi" (bname y) /\ ~ prefixed_name "C" (bname y).

(** What is asked of a half for a conversion to be meaningful. *)
Definition convertible_half (l : half) : Prop := adm_half l /\ psi_first l /\ degrees_linear l.

(** ** Units between which every conversion of equal dimension succeeds

    Force units (N, lbf, psi), mile, day, mmHg and micro-litres are not among
    them. *)
Definition safe_name (n : string) : Prop :=
  (exists t, In t ["m"; "g"; "s"; "A"; "K"; "mol"; "J"; "Pa"; "W"; "V"; "C"; "F"; "R"; "L"] /\ prefixed_name t n) \/
  In n ["min"; "hr"; "ft"; "in"; "yd"; "lb"; "BTU"; "atm"; "bar"; "cP"; "acre"; "um"; "ug"; "uJ"; "uPa"].
(** Litres and acres have exponent 1, degrees (and coulombs) an exponent other than 0, and no
    W, V or cP stands directly after a derived unit. *)
Definition safe_half (l : half) : Prop :=
  (forall x, In x l -> safe_name (bname x)) /\
  (forall x, In x l -> bname x = "acre" \/ prefixed_name "L" (bname x) -> ev (bexp x) = qc 1) /\
  (forall x t, In x l -> In t ["K"; "C"; "R"; "F"] -> prefixed_name t (bname x) -> ev (bexp x) <> qc 0) /\
  (forall i x y d d', nth_error l i = Some x -> nth_error l (S i) = Some y ->
     In d derived_names -> prefixed_name d (bname x) -> In d' ["W"; "V"; "cP"] -> ~ prefixed_name d' (bname y)).

(** The SI sizes with the library's pound. *)
Definition lib_si (n : string) : R :=
  if String.eqb n "lb" then Q2R (453592 # 1000000) else si n.
