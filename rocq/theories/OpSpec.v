(** * OpSpec: what equality of MultiUnits compares

    Every entry of one list is found in the other with the same name and the same
    exponent, which must also be of the same type unless it is 1. *)
From Coq Require Import String List ZArith QArith Qcanon.
From Verif Require Import Py UnitsStruct.

Definition listed_in (a b : half) : Prop :=
  forall x, In x a -> exists y, In y b /\ bname x = bname y /\ ev (bexp x) = ev (bexp y) /\ (ev (bexp x) = qc 1%Z \/ isf (bexp x) = isf (bexp y)).
