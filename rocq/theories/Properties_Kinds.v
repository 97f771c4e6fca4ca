(** * Properties of int and float exponents (C109)

    [floats_only l] : every exponent in [l] is a float; [float_kinds l] : every one
    is a float or a multiple of 100; [same_units] : the same names with the same
    exponents, int or float (KindSpec.v).  [parts] : the units of an object
    (FloatSpec.v). *)
From Coq Require Import String List ZArith QArith Qcanon Bool Reals.
From Verif Require Import Py Num UnitsData UnitsStruct Units FloatSpec KindSpec KindFacts KindCases.
Import ListNotations.
Local Open Scope string_scope.
Local Open Scope list_scope.

(** ** C109

    Full statement: a result equals the MultiUnit read from a text exactly when
    class, value and units agree.  Missing: operands with int exponents, and
    exponents that are multiples of 100 (both refuted below). *)
Theorem C109_equal_partial : forall (a b : pyval R) r c v s m, multi_with_unit a b -> float_kinds (parts a) -> float_kinds (parts b) ->
  py_mul a b = Ok (VMulti r) \/ py_div a b = Ok (VMulti r) -> (forall x k, In x (mtop r ++ mbot r) -> ev (bexp x) <> qc (100 * k)) -> mk_multi c v s = Ok m ->
  (py_eq (VMulti r) (VMulti m) = true <-> mc r = mc m /\ mv r = mv m /\ same_units (mtop r) (mtop m) /\ same_units (mbot r) (mbot m)).
Proof. exact result_text. Qed.
Print Assumptions C109_equal_partial.
Example C109_case : exists a b p c : multi_obj Q, mk_multi MMulti 2 "W/m^2" = Ok a /\ mk_multi MMulti 3 "m/K" = Ok b /\ py_mul (VMulti a) (VMulti b) = Ok (VMulti p) /\
  mk_multi MMulti 6 "kg*m/K*s^3" = Ok c /\ py_eq (VMulti p) (VMulti c) = true.
Proof. exact result_case. Qed.
(** Texts give floats, and products, quotients and powers keep them. *)
Theorem C109_text : forall c (v : R) s m, mk_multi c v s = Ok m -> floats_only (parts (VMulti m)).
Proof. exact text_floats. Qed.
Print Assumptions C109_text.
Theorem C109_mul : forall a b r : pyval R, multi_with_unit a b -> float_kinds (parts a) -> float_kinds (parts b) -> py_mul a b = Ok r -> float_kinds (parts r).
Proof. exact mul_kinds. Qed.
Print Assumptions C109_mul.
Theorem C109_div : forall a b r : pyval R, multi_with_unit a b -> float_kinds (parts a) -> float_kinds (parts b) -> py_div a b = Ok r -> float_kinds (parts r).
Proof. exact div_kinds. Qed.
Print Assumptions C109_div.
Theorem C109_pow : forall (a : multi_obj R) k r, floats_only (parts (VMulti a)) -> py_pow (VMulti a) k = Ok r -> float_kinds (parts r).
Proof. exact pow_kinds. Qed.
Print Assumptions C109_pow.
Theorem C109_floats : forall a b : multi_obj R, floats_only (mtop a ++ mbot a) -> floats_only (mtop b ++ mbot b) ->
  (py_eq (VMulti a) (VMulti b) = true <-> mc a = mc b /\ mv a = mv b /\ same_units (mtop a) (mtop b) /\ same_units (mbot a) (mbot b)).
Proof. exact equal_floats. Qed.
Print Assumptions C109_floats.
(** Units of one name that are combined: one float makes the sum a float. *)
Theorem C109_mixed : forall l x, In x (combine_units l) -> ev (bexp x) <> qc 0 ->
  (isf (bexp x) = true <-> exists y, In y l /\ bname y = bname x /\ isf (bexp y) = true).
Proof. exact combine_mixed. Qed.
Print Assumptions C109_mixed.
Example C109_mixed_case : combine_units [BU "m" (eflt (qc 2)); BU "s" (eint 2); BU "m" (eint 1)] = [BU "m" (eint 0); BU "s" (eint 2); BU "m" (eflt (qc 3))].
Proof. exact mixed_case. Qed.
(** 3 kg * (2 m * 2 m) is not 12 kg*m^2: the exponent of m is the int 2. *)
Theorem C109_int_refuted : exists (u : unit_obj Q) sq k p c, mk_unit Length 2%Q "m" (eint 1) = Ok u /\ py_mul (VUnit u) (VUnit u) = Ok sq /\ mk_multi MMulti 3%Q "kg" = Ok k /\
  py_mul (VMulti k) sq = Ok (VMulti p) /\ mk_multi MMulti 12%Q "kg*m^2" = Ok c /\
  mc p = mc c /\ (mv p == mv c)%Q /\ same_units (mtop p) (mtop c) /\ same_units (mbot p) (mbot c) /\ py_eq (VMulti p) (VMulti c) = false.
Proof. exact square_differs. Qed.
Print Assumptions C109_int_refuted.
(** J^50 squared is not J^100: the number of matches is at most the int 100. *)
Theorem C109_hundred_refuted : exists a p c : multi_obj Q, mk_multi MMulti 2%Q "J^50" = Ok a /\ py_mul (VMulti a) (VMulti a) = Ok (VMulti p) /\ mk_multi MMulti 4%Q "J^100" = Ok c /\
  mc p = mc c /\ (mv p == mv c)%Q /\ same_units (mtop p) (mtop c) /\ same_units (mbot p) (mbot c) /\ py_eq (VMulti p) (VMulti c) = false.
Proof. exact hundred_differs. Qed.
Print Assumptions C109_hundred_refuted.
