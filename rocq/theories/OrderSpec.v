(** * OrderSpec: the same factors in another order *)
From Coq Require Import String List Bool Reals Permutation.
From Verif Require Import Py Num UnitsStruct Units Spec PrefixSpec ConvSpec.
Import ListNotations.

Definition reordered (a b : multi_obj R) : Prop :=
  mc a = mc b /\ mv a = mv b /\ Permutation (mtop a) (mtop b) /\ Permutation (mbot a) (mbot b).
(** No name is that of a unit the conversion opens (Pa, J, W, ...), prefix aside. *)
Definition none_opened (names : list string) : Prop := forall n, In n names -> ~ In (root n) derived_names.
Definition names_of (a : multi_obj R) : list string := map bname (mtop a ++ mbot a).
