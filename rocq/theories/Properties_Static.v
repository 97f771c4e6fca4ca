(** * The unit of a result does not depend on the numbers (C118)

    Class, names and exponents of a result are determined by those of the
    operands; the numbers may differ, and may be of different types (reals,
    rationals, floats). *)
From Coq Require Import String Ascii List ZArith QArith Qcanon Bool Reals.
From Verif Require Import Py Num UnitsData UnitsStruct Units StaticSpec StaticFacts.
Import ListNotations.
Local Open Scope string_scope.
Local Open Scope list_scope.

Theorem C118_expr : forall (T T' : Type) (N : Num T) (N' : Num T') (e : term T) (e' : term T'), same_units e e' -> same_if_both (run e) (run e').
Proof. exact @run_two. Qed.
Print Assumptions C118_expr.
Theorem C118_convert : forall (T T' : Type) (N : Num T) (N' : Num T') (tb : tables T) (tb' : tables T') (m : multi_obj T) (m' : multi_obj T') s r r', mc m = mc m' ->
  multi_convert_to tb m s = Ok r -> multi_convert_to tb' m' s = Ok r' -> same_unit (VMulti r) (VMulti r').
Proof. exact @convert_two. Qed.
Print Assumptions C118_convert.
Theorem C118_unit_convert : forall (T T' : Type) (N : Num T) (N' : Num T') (tb : tables T) (tb' : tables T') (u : unit_obj T) (w : unit_obj T') target r r', same_unit (VUnit u) (VUnit w) ->
  unit_convert_to tb u target = Ok r -> unit_convert_to tb' w target = Ok r' -> same_unit (VUnit r) (VUnit r').
Proof. exact @uconvert_two. Qed.
Print Assumptions C118_unit_convert.
(** Within one number type, what is refused does not depend on the numbers
    either, except for divisions by zero. *)
Theorem C118_mul : forall (T : Type) (N : Num T) (a a' b b' : pyval T), same_unit a a' -> same_unit b b' -> same_outcome (py_mul a b) (py_mul a' b').
Proof. exact @mul_one. Qed.
Print Assumptions C118_mul.
Theorem C118_sum : forall (T : Type) (N : Num T) (a a' b b' : pyval T), same_unit a a' -> same_unit b b' ->
  same_outcome (py_add a b) (py_add a' b') /\ same_outcome (py_sub a b) (py_sub a' b').
Proof. exact @sum_one. Qed.
Print Assumptions C118_sum.
Theorem C118_neg : forall (T : Type) (N : Num T) (a a' : pyval T), same_unit a a' -> same_outcome (py_neg a) (py_neg a').
Proof. exact @neg_one. Qed.
Print Assumptions C118_neg.
Theorem C118_div : forall (T : Type) (N : Num T) (a a' b b' : pyval T), same_unit a a' -> same_unit b b' -> same_but_zero (py_div a b) (py_div a' b').
Proof. exact @div_one. Qed.
Print Assumptions C118_div.
Theorem C118_accepted : forall (T : Type) (N : Num T) (tb : tables T) (m m' : multi_obj T) s, same_unit (VMulti m) (VMulti m') ->
  same_outcome (rmap VMulti (multi_convert_to tb m s)) (rmap VMulti (multi_convert_to tb m' s)).
Proof. exact @convert_one. Qed.
Print Assumptions C118_accepted.
Example C118_case : mk_multi MMulti 3%R "kN/cm" = Ok force_r /\ mk_multi MMulti 70%Q "kN/cm" = Ok force_q /\
  same_units (TBin OMul (TLeaf (VMulti force_r)) (TLeaf (VMulti speed_r))) (TBin OMul (TLeaf (VMulti force_q)) (TLeaf (VMulti speed_q))) /\
  (exists r, run (TBin OMul (TLeaf (VMulti force_r)) (TLeaf (VMulti speed_r))) = Ok r) /\ (exists r, run (TBin OMul (TLeaf (VMulti force_q)) (TLeaf (VMulti speed_q))) = Ok r).
Proof. exact static_case. Qed.
(** The exception for zero is needed. *)
Example C118_zero : exists a b b' : pyval R, same_unit b b' /\ (exists r, py_div a b = Ok r) /\ py_div a b' = Raise EZeroDivisionError.
Proof. exact zero_refuted. Qed.
