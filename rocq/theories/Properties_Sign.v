(** * Converted values compare as before (C120)

    Conversion keeps the order of values, and so their signs, when all exponents
    are positive, and for single units.  A degree with a negative exponent
    reverses the order, and one with the exponent zero makes every value zero:
    convert_and_get_factor multiplies by the exponent of a degree. *)
From Coq Require Import String Ascii List ZArith QArith Qcanon Bool Reals.
From Verif Require Import Py Num UnitsData UnitsStruct Units ReadSpec ConvCases UnitConvSpec UnitErrSpec UnitConvFacts CommuteFacts SignSpec SignFacts.
Import ListNotations.
Local Open Scope string_scope.
Local Open Scope list_scope.
Local Open Scope R_scope.

Theorem C120_multi_partial : forall (a b p q : multi_obj R) s pt pb, parse_units s = Ok (pt, pb) -> mtop b = mtop a -> mbot b = mbot a ->
  (forall x, In x (mtop a ++ mbot a ++ pt ++ pb) -> (qc 0 < ev (bexp x))%Qc) ->
  multi_convert_to tables0 a s = Ok p -> multi_convert_to tables0 b s = Ok q -> (mv p < mv q <-> mv a < mv b).
Proof. exact sign_plain. Qed.
Print Assumptions C120_multi_partial.
(** Every conversion. *)
Theorem C120_multi_exact : forall (a b p q : multi_obj R) s pt pb, parse_units s = Ok (pt, pb) -> mtop b = mtop a -> mbot b = mbot a ->
  multi_convert_to tables0 a s = Ok p -> multi_convert_to tables0 b s = Ok q ->
  (lost (mtop a) -> mv p = 0 /\ mv q = 0) /\
  (~ lost (mtop a) -> (mv p < mv q <-> if Nat.odd (reversals (mtop a) + reversals (mbot a) + reversals pt + reversals pb) then mv b < mv a else mv a < mv b)).
Proof. exact sign_exact. Qed.
Print Assumptions C120_multi_exact.
Theorem C120_equal : forall (a b p q : multi_obj R) s pt pb, parse_units s = Ok (pt, pb) -> mtop b = mtop a -> mbot b = mbot a -> ~ lost (mtop a) ->
  multi_convert_to tables0 a s = Ok p -> multi_convert_to tables0 b s = Ok q -> py_eq (VMulti p) (VMulti q) = py_eq (VMulti a) (VMulti b).
Proof. exact sign_equal. Qed.
Print Assumptions C120_equal.
Theorem C120_unit : forall c n t (x y : R) u w p q, In n (table_names c) -> In t (table_names c) -> simple u c x n -> simple w c y n ->
  unit_convert_to tables0 u t = Ok p -> unit_convert_to tables0 w t = Ok q -> (uv p < uv q <-> x < y).
Proof. exact unit_order. Qed.
Print Assumptions C120_unit.
Theorem C120_temperature : forall s t (x y : R) u w p q, simple u Temperature x (tname s) -> simple w Temperature y (tname s) ->
  unit_convert_to tables0 u (tname t) = Ok p -> unit_convert_to tables0 w (tname t) = Ok q -> (uv p < uv q <-> x < y).
Proof. exact temp_order. Qed.
Print Assumptions C120_temperature.
(** 5 A*K^-1 is less than 6 A*K^-1, but not in A/K. *)
Theorem C120_reversed_refuted : exists p q, multi_convert_to tables0 ak "A/K" = Ok p /\ multi_convert_to tables0 ak6 "A/K" = Ok q /\ mv ak < mv ak6 /\ mv q < mv p.
Proof. exact reversed. Qed.
Print Assumptions C120_reversed_refuted.
(** 5 m*K^0 is 0 m. *)
Theorem C120_zero_refuted : mk_multi MMulti 5 "m*K^0" = Ok mk0 /\ exists r, multi_convert_to tables0 mk0 "m" = Ok r /\ mv r = 0.
Proof. exact zeroed. Qed.
Print Assumptions C120_zero_refuted.
(** 3 and 4 km/hr in ft/s. *)
Example C120_case : parse_units "ft/s" = Ok ([BU "ft" (eflt (qc 1))], [BU "s" (eflt (qc 1))]) /\
  (forall x, In x (mtop speed_a ++ mbot speed_a ++ [BU "ft" (eflt (qc 1))] ++ [BU "s" (eflt (qc 1))]) -> (qc 0 < ev (bexp x))%Qc) /\
  (exists p, multi_convert_to tables0 speed_a "ft/s" = Ok p) /\ exists q, multi_convert_to tables0 speed_b "ft/s" = Ok q.
Proof. exact sign_case. Qed.
