(** * B64Spec: correct rounding to binary64

    [r] is the rounding of [v] to nearest, ties to even; infinity from half a unit
    above the largest number on. *)
From Coq Require Import ZArith Reals.
From Coq Require Import Floats.SpecFloat.
From Verif Require Import RangeSpec PrintSpec.
Local Open Scope R_scope.

Definition limit64 : R := IZR (2 ^ 54 - 1) * powerRZ 2 970.
Definition rounded64 (v : R) (r : spec_float) : Prop :=
  (Rabs v < limit64 -> nearest64 v r) /\ (limit64 <= v -> r = S754_infinity false) /\ (v <= - limit64 -> r = S754_infinity true).
