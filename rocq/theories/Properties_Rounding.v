(** * Properties of the model in inexact arithmetic (C76-C78, C99)

    [accurate u a] : every operation of the arithmetic [a] has a relative error
    of at most [u]; whole numbers of at most 53 bits are exact.  [feval a e] runs
    the model on [e] in that arithmetic, [eval e] in exact arithmetic.
    [same_outcome P] : the same exception, or results of the same class with the
    same units and values related by [P].  [within u n x y] : y = x f with
    (1-u)^n <= f <= (1-u)^-n.  [roundings e] counts the roundings of the run. *)
From Coq Require Import String List ZArith QArith Qcanon Bool Reals Lra.
From Coq Require Import Floats.SpecFloat.
From Verif Require Import Py Num UnitsData UnitsStruct Units Expr Rounding RoundSpec RoundCases UnitConvSpec Solve Formulas SumSpec SumErr SumCases.
Import ListNotations.
Local Open Scope string_scope.
Local Open Scope list_scope.
Local Open Scope R_scope.

(** ** C76: expressions *)
Theorem C76_products : forall u a, 0 <= u < 1 -> accurate u a ->
  forall e, no_sums e -> same_outcome (within u (roundings e)) (eval e) (feval a e).
Proof. exact rounded_products. Qed.
Print Assumptions C76_products.
Theorem C76_sums : forall u a, 0 <= u < 1 -> accurate u a ->
  forall e, only_positive e -> same_outcome (within u (roundings e)) (eval e) (feval a e).
Proof. exact rounded_sums. Qed.
Print Assumptions C76_sums.
(** The bound in plain terms. *)
Theorem C76_bound : forall u, 0 <= u < 1 -> forall n x y, INR n * u <= / 100 -> within u n x y ->
  Rabs (y - x) <= 1.02 * INR n * u * Rabs x.
Proof. exact within_bound. Qed.
Print Assumptions C76_bound.
(** Rounding every result to the nearest number of 53 bits is such an arithmetic. *)
Example C76_arithmetic : accurate (/ 2 ^ 53) arith53.
Proof. exact arith53_accurate. Qed.
Example C76_products_case : no_sums sample /\ (exists r, @geval nat Cnum fresh sample = Ok r) /\ roundings sample = 21%nat.
Proof. exact sample_count. Qed.
Example C76_sums_case : only_positive sample_sum /\ (exists r, @geval nat Cnum fresh sample_sum = Ok r) /\ roundings sample_sum = 2%nat.
Proof. exact sample_sum_count. Qed.

(** ** C77: conversions

    [fconvert], [fconvert_unit] : convert_to of MultiUnits and Units in the
    arithmetic [a], with the library's tables in that arithmetic. *)
Theorem C77_multi : forall u a, 0 <= u < 1 -> accurate u a -> forall m target,
  same_outcome (within u (convert_roundings m target))
    (rmap VMulti (multi_convert_to tables0 m target)) (rmap VMulti (fconvert a m target)).
Proof. exact rounded_conversion. Qed.
Print Assumptions C77_multi.
Theorem C77_unit : forall u a, 0 <= u < 1 -> accurate u a -> forall w target, uc w <> Temperature ->
  same_outcome (within u (convert_unit_roundings w target))
    (rmap VUnit (unit_convert_to tables0 w target)) (rmap VUnit (fconvert_unit a w target)).
Proof. exact rounded_unit_conversion. Qed.
Print Assumptions C77_unit.
(** Temperatures have offsets: the error is absolute. *)
Theorem C77_temperature : forall u a, 0 <= u < 1 -> accurate u a -> u <= / 10000 ->
  forall s t v w, simple w Temperature v (tname s) ->
  exists r r', unit_convert_to tables0 w (tname t) = Ok r /\ fconvert_unit a w (tname t) = Ok r' /\
    uc r' = uc r /\ un r' = un r /\ ue r' = ue r /\ Rabs (uv r' - uv r) <= 12 * u * (2 * Rabs v + 1200).
Proof. exact rounded_temperature. Qed.
Print Assumptions C77_temperature.
Example C77_case : let m := MO MMulti 36 [bu_ "km" 1] [bu_ "hr" 1] in convert_roundings m "m/s" = 14%nat.
Proof. exact speed_count. Qed.

(** ** C78: there and back

    The full claim: a conversion there and back returns the same float.  It
    returns a value close to it; in binary64, 7 m/s by way of km/hr and 0.1 C by
    way of K come back as other floats. *)
Theorem C78_close_partial : forall u a, 0 <= u < 1 -> accurate u a -> forall m s s0 r r',
  parse_units s0 = Ok (mtop m, mbot m) -> fconvert a m s = Ok r -> fconvert a r s0 = Ok r' ->
  mc r' = mc m /\ mtop r' = mtop m /\ mbot r' = mbot m /\
  within u (convert_roundings m s + convert_roundings r s0) (mv m) (mv r').
Proof. exact rounded_round_trip. Qed.
Print Assumptions C78_close_partial.
Example C78_case : parse_units "km/hr" = Ok ([bu_ "km" 1], [bu_ "hr" 1]) /\ let m := MO MMulti 36 [bu_ "km" 1] [bu_ "hr" 1] in convert_roundings m "m/s" = 14%nat.
Proof. split; [vm_compute; reflexivity|exact speed_count]. Qed.
Theorem C78_multi_refuted : exists m r r', mk_multi MMulti (f_int 7) "m/s" = Ok m /\
  bconvert m "km/hr" = Ok r /\ bconvert r "m/s" = Ok r' /\
  mtop r' = mtop m /\ mbot r' = mbot m /\ SFeqb (mv r') (mv m) = false.
Proof. exact seven_back. Qed.
Print Assumptions C78_multi_refuted.
Theorem C78_temperature_refuted : exists w r r', mk_unit Temperature (f_lit (1 # 10)) "C" (eint 1) = Ok w /\
  bconvert_unit w "K" = Ok r /\ bconvert_unit r "C" = Ok r' /\
  un r' = un w /\ ue r' = ue w /\ SFeqb (uv r') (uv w) = false.
Proof. exact tenth_back. Qed.
Print Assumptions C78_temperature_refuted.

(** ** C99: sums and differences

    [bulk e] : the exact result of [e] with every value replaced by its absolute
    value and every difference by a sum.  [off u n z x y] : y differs from x by at
    most ((1-u)^-n - 1) z.  [tame e] : no divisor, and nothing raised to a negative
    or broken power, has a difference or a sum of mixed signs in it. *)
Theorem C99_any : forall u, 0 <= u < 1 -> forall a, accurate u a ->
  forall e, tame e -> same_outcome (off u (roundings e) (bulk e)) (eval e) (feval a e).
Proof. exact rounded_any. Qed.
Print Assumptions C99_any.
Theorem C99_bound : forall u, 0 <= u < 1 -> forall n z x y, INR n * u <= / 100 -> 0 <= z -> off u n z x y ->
  Rabs (y - x) <= 1.02 * INR n * u * z.
Proof. exact off_bound. Qed.
Print Assumptions C99_bound.
(** No bound relative to the result holds, however many roundings are allowed. *)
Theorem C99_relative_refuted : forall u, 0 < u < 1 -> exists a e, accurate u a /\ tame e /\
  forall n, ~ same_outcome (within u n) (eval e) (feval a e).
Proof. exact no_relative_bound. Qed.
Print Assumptions C99_relative_refuted.
(** The library's walls, for every unknown; [bounded u a run e] : the exact run
    and the one in the arithmetic [a] are related as in C99_any. *)
Theorem C99_heat : forall u, 0 <= u < 1 -> forall a, accurate u a -> forall k T1 T2 A d q,
  bounded u a (planar_heat [AVal k; AVal T1; AVal T2; AVal A; AVal d] []) (heat_expr k T1 T2 A d) /\
  bounded u a (planar_heat [AVal k; AVal T1; AVal T2; AVal A; ANone; AVal q] []) (heat_d_expr k T1 T2 A q) /\
  bounded u a (planar_heat [AVal k; AVal T1; ANone; AVal A; AVal d; AVal q] []) (heat_T2_expr k T1 A d q) /\
  bounded u a (planar_heat [AVal k; ANone; AVal T2; AVal A; AVal d; AVal q] []) (heat_T1_expr k T2 A d q).
Proof. exact heat_bounded. Qed.
Print Assumptions C99_heat.
Theorem C99_flux : forall u, 0 <= u < 1 -> forall a, accurate u a -> forall k T1 T2 d q,
  bounded u a (planar_flux [AVal k; AVal T1; AVal T2; AVal d] []) (flux_expr k T1 T2 d) /\
  bounded u a (planar_flux [AVal k; AVal T1; AVal T2; ANone; AVal q] []) (flux_d_expr k T1 T2 q) /\
  bounded u a (planar_flux [AVal k; AVal T1; ANone; AVal d; AVal q] []) (flux_T2_expr k T1 d q) /\
  bounded u a (planar_flux [AVal k; ANone; AVal T2; AVal d; AVal q] []) (flux_T1_expr k T2 d q).
Proof. exact flux_bounded. Qed.
Print Assumptions C99_flux.
Theorem C99_mass : forall u, 0 <= u < 1 -> forall a, accurate u a -> forall D A C2 C1 t,
  bounded u a (planar_mass_transfer D A C2 C1 t) (heat_expr D C1 C2 A t) /\
  bounded u a (planar_mass_flux D C2 C1 t) (flux_expr D C1 C2 t).
Proof. exact mass_bounded. Qed.
Print Assumptions C99_mass.
Theorem C99_grashof : forall u, 0 <= u < 1 -> forall a, accurate u a -> forall g beta T2 T1 L rho mu,
  bounded u a (grashof g beta T2 T1 L rho mu) (grashof_expr g beta T2 T1 L rho mu).
Proof. exact grashof_bounded. Qed.
Print Assumptions C99_grashof.
(** The groups without a difference are accurate to the number of their roundings. *)
Theorem C99_groups : forall u, 0 <= u < 1 -> forall a, accurate u a ->
  (forall rho v L mu, sharp u a (reynolds rho v L mu) (reynolds_expr rho v L mu)) /\
  (forall h L k, sharp u a (biot h L k) (over_expr h L k)) /\
  (forall mu cp k, sharp u a (prandtl mu cp k) (over_expr mu cp k)) /\
  (forall mu rho D, sharp u a (schmidt mu rho D) (schmidt_expr mu rho D)) /\
  (forall diameter length cp l rho v k, sharp u a (gretz diameter length cp l rho v k) (gretz_expr diameter length cp l rho v k)).
Proof. exact groups_sharp. Qed.
Print Assumptions C99_groups.
(** A wall in plain numbers, and one in units. *)
Example C99_numbers : forall k T1 T2 A d, 0 < k -> 0 < A -> 0 < d ->
  roundings (heat_expr (VNum k) (VNum T1) (VNum T2) (VNum A) (VNum d)) = 4%nat /\
  bulk (heat_expr (VNum k) (VNum T1) (VNum T2) (VNum A) (VNum d)) = k * A * ((Rabs T2 + Rabs T1) / d).
Proof. exact heat_numbers. Qed.
Example C99_case : tame wall_expr /\ (exists r, @geval nat Cnum fresh wall_expr = Ok r) /\ roundings wall_expr = 9%nat.
Proof. exact wall_count. Qed.
