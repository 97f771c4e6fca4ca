(** * EosFloatSpec: what it means that a call in binary64 finds its compressibility factor *)
From Coq Require Import String ZArith QArith Reals.
From Coq Require Import Floats.SpecFloat.
From Verif Require Import Py Num UnitsData UnitsStruct Units RangeSpec EosSpec.
Local Open Scope R_scope.

(** Objects [Temperature(x, n)] and [Pressure(x, n)] with a binary64 number. *)
Definition temp64 (n : string) (x : spec_float) : pyval spec_float := VUnit (UO Temperature x n (eint 1)).
Definition pres64 (n : string) (x : spec_float) : pyval spec_float := VUnit (UO Pressure x n (eint 1)).
(** A positive binary64 number between 2^-k and 2^k. *)
Definition ordinary (k : Z) (x : spec_float) : Prop := finite64 x /\ powerRZ 2 (- k) <= SFR x <= powerRZ 2 k.
(** There is a greatest compressibility factor [z]; it is at least 1/2, and after n
    iterations the call answers a binary64 number within e n of it. *)
Definition finds_greatest64 (law : R -> R -> R -> R -> R -> R -> Prop) (T P Tc Pc : spec_float) (call : Z -> res (pyval spec_float)) (e : nat -> R) : Prop :=
  exists z, 1 / 2 <= z /\ compressibility law (SFR T) (SFR P) (SFR Tc) (SFR Pc) z /\
    (forall z', compressibility law (SFR T) (SFR P) (SFR Tc) (SFR Pc) z' -> z' <= z) /\
    forall n, (0 <= n)%Z -> exists x, call n = Ok (VNum x) /\ finite64 x /\ Rabs (SFR x - z) <= e (Z.to_nat n).
(** There is a least positive compressibility factor [z]; it lies between [b] and
    [2 b], and after n iterations the call answers a binary64 number within e n of it. *)
Definition finds_least64 (law : R -> R -> R -> R -> R -> R -> Prop) (T P Tc Pc : spec_float) (call : Z -> res (pyval spec_float)) (b : R) (e : nat -> R) : Prop :=
  exists z, b < z < 2 * b /\ compressibility law (SFR T) (SFR P) (SFR Tc) (SFR Pc) z /\
    (forall z', compressibility law (SFR T) (SFR P) (SFR Tc) (SFR Pc) z' -> 0 < z' -> z <= z') /\
    forall n, (0 <= n)%Z -> exists x, call n = Ok (VNum x) /\ finite64 x /\ Rabs (SFR x - z) <= e (Z.to_nat n).
