(** * SpellSpec: different spellings of the same unit *)
From Coq Require Import String List Bool QArith Qcanon Reals.
From Verif Require Import Py Num UnitsStruct Units Spec PrefixSpec ReadSpec.
Import ListNotations.

(** Every name has the same exponent in all: factors may be in any order, be
    repeated, stand below the slash or above it with the opposite exponent, or
    cancel. *)
Definition respelled (a b : multi_obj R) : Prop :=
  mc a = mc b /\ mv a = mv b /\ forall n, (net n (mtop a) - net n (mbot a) = net n (mtop b) - net n (mbot b))%Qc.
(** Prefix aside, a unit of length, mass, time, current, amount, force, energy or
    pressure that the conversion does not open; no temperature, no L, no acre. *)
Definition ordinary (n : string) : Prop := In (root n) (map fst read_sizes) /\ ~ In (root n) derived_names.
Definition all_ordinary (a : multi_obj R) : Prop := forall x, In x (mtop a ++ mbot a) -> ordinary (bname x).
