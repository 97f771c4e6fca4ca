(** * Converting sums and multiples (C119)

    Converting the terms and adding is adding and converting the sum, and the
    same for differences, multiples, quotients by a number and negatives.  Not
    so for temperatures, whose scales have different zeros. *)
From Coq Require Import String Ascii List ZArith QArith Qcanon Bool Reals.
From Verif Require Import Py Num UnitsData UnitsStruct Units NumFacts DistribSpec UnitConvSpec UnitErrSpec CommuteFacts.
Import ListNotations.
Local Open Scope string_scope.
Local Open Scope list_scope.
Local Open Scope R_scope.

Theorem C119_multi : forall minus (tb : tables R) (a b : multi_obj R) s t p, plus_or_minus minus (VMulti a) (VMulti b) = Ok s -> multi_convert_to tb a t = Ok p ->
  exists m q r, s = VMulti m /\ multi_convert_to tb b t = Ok q /\ multi_convert_to tb m t = Ok r /\ plus_or_minus minus (VMulti p) (VMulti q) = Ok (VMulti r).
Proof. exact multi_commutes. Qed.
Print Assumptions C119_multi.
Theorem C119_scale : forall (tb : tables R) (a : multi_obj R) x t p, multi_convert_to tb a t = Ok p ->
  exists m r, py_mul (VNum x) (VMulti a) = Ok (VMulti m) /\ multi_convert_to tb m t = Ok r /\ py_mul (VNum x) (VMulti p) = Ok (VMulti r).
Proof. exact scale_commutes. Qed.
Print Assumptions C119_scale.
Theorem C119_div : forall (tb : tables R) (a : multi_obj R) x t p, x <> 0 -> multi_convert_to tb a t = Ok p ->
  exists m r, py_div (VMulti a) (VNum x) = Ok (VMulti m) /\ multi_convert_to tb m t = Ok r /\ py_div (VMulti p) (VNum x) = Ok (VMulti r).
Proof. exact div_commutes. Qed.
Print Assumptions C119_div.
Theorem C119_neg : forall (tb : tables R) (a : multi_obj R) t p, multi_convert_to tb a t = Ok p ->
  exists m r, py_neg (VMulti a) = Ok (VMulti m) /\ multi_convert_to tb m t = Ok r /\ py_neg (VMulti p) = Ok (VMulti r).
Proof. exact neg_commutes. Qed.
Print Assumptions C119_neg.
(** The bundled tables, temperatures apart. *)
Theorem C119_unit_partial : forall minus c n t (x y : R) u w, In n (table_names c) -> In t (table_names c) -> simple u c x n -> simple w c y n ->
  exists s p q r, plus_or_minus minus (VUnit u) (VUnit w) = Ok (VUnit s) /\ unit_convert_to tables0 u t = Ok p /\ unit_convert_to tables0 w t = Ok q /\
    unit_convert_to tables0 s t = Ok r /\ plus_or_minus minus (VUnit p) (VUnit q) = Ok (VUnit r).
Proof. exact unit_commutes. Qed.
Print Assumptions C119_unit_partial.
(** Temperatures: exactly when the scales are the same or both start at
    absolute zero. *)
Theorem C119_temperature : forall minus s t (x y : R) u w o p q r, simple u Temperature x (tname s) -> simple w Temperature y (tname s) -> plus_or_minus minus (VUnit u) (VUnit w) = Ok (VUnit o) ->
  unit_convert_to tables0 u (tname t) = Ok p -> unit_convert_to tables0 w (tname t) = Ok q -> unit_convert_to tables0 o (tname t) = Ok r ->
  (plus_or_minus minus (VUnit p) (VUnit q) = Ok (VUnit r) <-> s = t \/ (kelvin s 0 = 0 /\ kelvin t 0 = 0)).
Proof. exact temp_commutes. Qed.
Print Assumptions C119_temperature.
Theorem C119_degrees_refuted : exists u w o p q r : unit_obj R, mk_unit Temperature 20 "C" (eint 1) = Ok u /\ mk_unit Temperature 30 "C" (eint 1) = Ok w /\ py_add (VUnit u) (VUnit w) = Ok (VUnit o) /\
  unit_convert_to tables0 u "K" = Ok p /\ unit_convert_to tables0 w "K" = Ok q /\ unit_convert_to tables0 o "K" = Ok r /\ py_add (VUnit p) (VUnit q) <> Ok (VUnit r).
Proof. exact degrees_refuted. Qed.
Print Assumptions C119_degrees_refuted.
(** Squares, whose values are squared as well (C27): 2 m^2 and 3 m^2 come out
    as 130000 cm^2 one way and 250000 cm^2 the other. *)
Theorem C119_squares : forall minus c n t (x y : R) e, In n (si_names c) -> In t (si_names c) -> n <> t -> standard c = Some n \/ standard c = Some t ->
  exists s p q r, plus_or_minus minus (VUnit (UO c x n e)) (VUnit (UO c y n e)) = Ok (VUnit s) /\ unit_convert_to tables0 (UO c x n e) (t +++ "^2") = Ok p /\
    unit_convert_to tables0 (UO c y n e) (t +++ "^2") = Ok q /\ unit_convert_to tables0 s (t +++ "^2") = Ok r /\
    (plus_or_minus minus (VUnit p) (VUnit q) = Ok (VUnit r) <-> y = 0 \/ (if minus then x = y else x = 0)).
Proof. exact squares_commute. Qed.
Print Assumptions C119_squares.
(** 3 and 4 km/hr to ft/s; 5 ft to miles. *)
Example C119_case : mk_multi MMulti 3 "km/hr" = Ok speed_a /\ mk_multi MMulti 4 "km/hr" = Ok speed_b /\ (exists s, py_add (VMulti speed_a) (VMulti speed_b) = Ok s) /\
  (exists p, multi_convert_to tables0 speed_a "ft/s" = Ok p) /\ In "ft" (table_names Length) /\ In "mile" (table_names Length) /\ simple (UO Length 5 "ft" (eint 1)) Length 5 "ft".
Proof. exact commute_case. Qed.
