(** * KindSpec: int and float exponents

    [m ** 2] and [m ** 2.0] are the same unit, but their texts and so their hashes
    differ: as elements of a set they are two units. *)
From Coq Require Import String List ZArith QArith Qcanon.
From Verif Require Import Py Num UnitsStruct Units.

(** A float, or an int that is a multiple of 100. *)
Definition float_kind (e : expo) : Prop := isf e = true \/ exists k : Z, ev e = qc (100 * k).
Definition floats_only (l : half) : Prop := forall x, In x l -> isf (bexp x) = true.
Definition float_kinds (l : half) : Prop := forall x, In x l -> float_kind (bexp x).
(** The same units with the same exponents, whether written as ints or floats. *)
Definition same_units (a b : half) : Prop :=
  forall n e, (exists x, In x a /\ bname x = n /\ ev (bexp x) = e) <-> (exists y, In y b /\ bname y = n /\ ev (bexp y) = e).
(** Units and MultiUnits. *)
Definition multi_with_unit {T} (a b : pyval T) : Prop :=
  match a, b with VMulti _, VMulti _ | VMulti _, VUnit _ | VUnit _, VMulti _ => True | _, _ => False end.
