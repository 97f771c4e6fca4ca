(** * Sums of quantities in different units (C122)

    The second summand is converted to the unit of the first before adding, or
    the first to that of the second: the sums are the same quantity. *)
From Coq Require Import String Ascii List ZArith QArith Qcanon Bool Reals.
From Verif Require Import Py Num UnitsData UnitsStruct Units DistribSpec UnitConvSpec CommuteFacts MixedFacts.
Import ListNotations.
Local Open Scope string_scope.
Local Open Scope list_scope.
Local Open Scope R_scope.

(** Any tables; the second sum succeeds if the first one does and its terms can
    be converted. *)
Theorem C122_multi : forall minus (tb : tables R) (a b b' a' : multi_obj R) s t x, parse_units t = Ok (mtop b, mbot b) -> multi_convert_to tb b s = Ok b' -> plus_or_minus minus (VMulti a) (VMulti b') = Ok x ->
  multi_convert_to tb a t = Ok a' -> exists m r, x = VMulti m /\ multi_convert_to tb m t = Ok r /\ plus_or_minus minus (VMulti a') (VMulti b) = Ok (VMulti r).
Proof. exact mixed_multi. Qed.
Print Assumptions C122_multi.
(** Units that convert there and back exactly (C25). *)
Theorem C122_unit_partial : forall minus c n t (x y : R) u w, In n (round_names c) -> In t (round_names c) -> simple u c x n -> simple w c y t ->
  exists w' s u' r, unit_convert_to tables0 w n = Ok w' /\ plus_or_minus minus (VUnit u) (VUnit w') = Ok (VUnit s) /\ unit_convert_to tables0 u t = Ok u' /\
    unit_convert_to tables0 s t = Ok r /\ plus_or_minus minus (VUnit u') (VUnit w) = Ok (VUnit r).
Proof. exact mixed_unit. Qed.
Print Assumptions C122_unit_partial.
(** The other tabulated units but the mile: up to a hundred-thousandth of the
    second summand. *)
Theorem C122_unit_close_partial : forall minus c n t (x y : R) u w, In n (near_names c) -> In t (near_names c) -> simple u c x n -> simple w c y t ->
  exists w' s u' r z, unit_convert_to tables0 w n = Ok w' /\ plus_or_minus minus (VUnit u) (VUnit w') = Ok (VUnit s) /\ unit_convert_to tables0 u t = Ok u' /\
    unit_convert_to tables0 s t = Ok r /\ plus_or_minus minus (VUnit u') (VUnit w) = Ok (VUnit z) /\ uc r = uc z /\ un r = un z /\ ue r = ue z /\ Rabs (uv r - uv z) <= / 100000 * Rabs y.
Proof. exact mixed_close. Qed.
Print Assumptions C122_unit_close_partial.
(** 20 C and 300 K. *)
Theorem C122_degrees_refuted : exists u w w' o p r : unit_obj R, mk_unit Temperature 20 "C" (eint 1) = Ok u /\ mk_unit Temperature 300 "K" (eint 1) = Ok w /\ unit_convert_to tables0 w "C" = Ok w' /\
  py_add (VUnit u) (VUnit w') = Ok (VUnit o) /\ unit_convert_to tables0 u "K" = Ok p /\ unit_convert_to tables0 o "K" = Ok r /\ py_add (VUnit p) (VUnit w) <> Ok (VUnit r).
Proof. exact mixed_degrees. Qed.
Print Assumptions C122_degrees_refuted.
(** 3 km/hr and 7 ft/s; kPa and psi. *)
Example C122_case : parse_units "ft/s" = Ok (mtop speed_f, mbot speed_f) /\ (exists b' x, multi_convert_to tables0 speed_f "km/hr" = Ok b' /\ py_add (VMulti speed_a) (VMulti b') = Ok x) /\
  (exists a', multi_convert_to tables0 speed_a "ft/s" = Ok a') /\ In "kPa" (round_names Pressure) /\ In "psi" (round_names Pressure).
Proof. exact mixed_case. Qed.
