(** * EosFoundSpec: what it means that a liquid call finds its compressibility factor *)
From Coq Require Import ZArith Reals.
From Verif Require Import Py Num UnitsData UnitsStruct Units EosSpec.
Local Open Scope R_scope.

(** There is a least positive compressibility factor [z] under the law; it lies between
    [b] and [2 b], and after n iterations the call is within r^(n+1) b of it. *)
Definition finds_least (law : R -> R -> R -> R -> R -> R -> Prop) (T P Tc Pc : R) (call : Z -> res (pyval R)) (b r : R) : Prop :=
  exists z, b < z < 2 * b /\ compressibility law T P Tc Pc z /\ (forall z', compressibility law T P Tc Pc z' -> 0 < z' -> z <= z') /\
    forall n, (0 <= n)%Z -> exists x, call n = Ok (VNum x) /\ b <= x <= 2 * b /\ Rabs (x - z) <= r ^ (S (Z.to_nat n)) * b.
(** There is a greatest compressibility factor [z]; it is at least 1/2, and after n
    iterations the call is within e n of it. *)
Definition finds_greatest (law : R -> R -> R -> R -> R -> R -> Prop) (T P Tc Pc : R) (call : Z -> res (pyval R)) (e : nat -> R) : Prop :=
  exists z, 1 / 2 <= z /\ compressibility law T P Tc Pc z /\ (forall z', compressibility law T P Tc Pc z' -> z' <= z) /\
    forall n, (0 <= n)%Z -> exists x, call n = Ok (VNum x) /\ Rabs (x - z) <= e (Z.to_nat n).
(** The calls settle on the least positive compressibility factor. *)
Definition settles_least (law : R -> R -> R -> R -> R -> R -> Prop) (T P Tc Pc : R) (call : Z -> res (pyval R)) : Prop :=
  exists z, settles call z /\ compressibility law T P Tc Pc z /\ 0 < z /\ forall z', compressibility law T P Tc Pc z' -> 0 < z' -> z <= z'.
(** The calls settle on the greatest compressibility factor. *)
Definition settles_greatest (law : R -> R -> R -> R -> R -> R -> Prop) (T P Tc Pc : R) (call : Z -> res (pyval R)) : Prop :=
  exists z, settles call z /\ compressibility law T P Tc Pc z /\ forall z', compressibility law T P Tc Pc z' -> z' <= z.
