(** * Properties of the model in binary64 (C83, C100)

    [beval p enc e] runs the model on [e] in binary64 ([spec_float], 53 bits,
    exponents up to 1024), with [p] for x ** q and each number x of [e] held as
    [enc x]; [eval e] runs it in exact arithmetic.  [held enc sz x] : [enc x] is a
    binary64 number equal to x, and x is zero or between 2^-(sz x) and 2^(sz x).
    [fits allowed sz e = Some n] : from these sizes alone, following the model, no
    number in the run leaves 2^-1000 .. 2^1000, powers have exponents in [allowed],
    and the run has n roundings.  [like P] : the same exception, or the same class
    and units, a binary64 number, and values related by [P]. *)
From Coq Require Import String List ZArith QArith Qcanon Bool Reals Lra.
From Coq Require Import Floats.SpecFloat.
From Verif Require Import Py Num UnitsData UnitsStruct Units Expr Rounding RoundSpec RoundCases Range RangeSpec RangeFacts RangeCases RangeTemp UnitConvSpec.
From Verif Require Import PrintSpec B64Spec B64Full Solve Formulas SumSpec SumCases SumRange SumRangeFacts SumRangeCases.
Import ListNotations.
Local Open Scope string_scope.
Local Open Scope list_scope.
Local Open Scope R_scope.

(** ** C83: expressions *)
Theorem C83_products : forall u allowed p, / 2 ^ 53 <= u <= / 2 ^ 40 -> pow_good u allowed p ->
  forall enc sz e n, no_sums e -> leaves (held enc sz) e -> fits allowed sz e = Some n ->
  like (within u n) (eval e) (beval p enc e).
Proof. exact binary_products. Qed.
Print Assumptions C83_products.
Theorem C83_sums : forall u allowed p, / 2 ^ 53 <= u <= / 2 ^ 40 -> pow_good u allowed p ->
  forall enc sz e n, only_positive e -> leaves (held enc sz) e -> fits allowed sz e = Some n ->
  like (within u n) (eval e) (beval p enc e).
Proof. exact binary_sums. Qed.
Print Assumptions C83_sums.
(** Rounding whole powers correctly is such a [p]. *)
Example C83_powers : pow_good (/ 2 ^ 53) is_int f_pow.
Proof. exact f_pow_good. Qed.
(** (5 km/hr * 3 kg/m^3 / 2 cm)^2, (5 km/hr + 3 km/hr) * 2 s; numbers up to 2^10. *)
Example C83_products_case : no_sums sample /\ leaves (held enc_int (fun _ => 10%Z)) sample /\ fits is_int (fun _ => 10%Z) sample = Some 21%nat.
Proof. exact sample_fits. Qed.
Example C83_sums_case : only_positive sample_sum /\ leaves (held enc_int (fun _ => 10%Z)) sample_sum /\ fits is_int (fun _ => 10%Z) sample_sum = Some 2%nat.
Proof. exact sample_sum_fits. Qed.

(** ** C83: conversions *)
Theorem C83_multi : forall u allowed p, / 2 ^ 53 <= u <= / 2 ^ 40 -> pow_good u allowed p ->
  forall m target k n, finite64 (mv m) -> sized k (SFR (mv m)) -> fits_multi allowed k m target = Some n ->
  like (within u n) (rmap VMulti (multi_convert_to tables0 (MO (mc m) (SFR (mv m)) (mtop m) (mbot m)) target))
    (rmap VMulti (bmulti p m target)).
Proof. exact binary_multi. Qed.
Print Assumptions C83_multi.
Theorem C83_unit : forall u allowed p, / 2 ^ 53 <= u <= / 2 ^ 40 -> pow_good u allowed p ->
  forall w target k n, uc w <> Temperature -> finite64 (uv w) -> sized k (SFR (uv w)) -> fits_unit allowed k w target = Some n ->
  like (within u n) (rmap VUnit (unit_convert_to tables0 (UO (uc w) (SFR (uv w)) (un w) (ue w)) target))
    (rmap VUnit (bunit p w target)).
Proof. exact binary_unit. Qed.
Print Assumptions C83_unit.
Theorem C83_temperature : forall u allowed p, / 2 ^ 53 <= u <= / 2 ^ 40 -> pow_good u allowed p -> allowed (qc 1) = true ->
  forall s t w, uc w = Temperature -> un w = tname s -> ue w = eint 1 -> finite64 (uv w) -> sized 900 (SFR (uv w)) ->
  exists r r', unit_convert_to tables0 (UO (uc w) (SFR (uv w)) (un w) (ue w)) (tname t) = Ok r /\ bunit p w (tname t) = Ok r' /\
    uc r' = uc r /\ un r' = un r /\ ue r' = ue r /\ finite64 (uv r') /\
    Rabs (SFR (uv r') - uv r) <= 12 * u * (2 * Rabs (SFR (uv w)) + 1200).
Proof. exact binary_temperature. Qed.
Print Assumptions C83_temperature.
Example C83_multi_case : let m := MO MMulti (f_int 36) [bu_ "km" 1] [bu_ "hr" 1] in
  finite64 (mv m) /\ sized 10 (SFR (mv m)) /\ fits_multi is_int 10 m "m/s" = Some 14%nat.
Proof. exact speed_fits. Qed.
Example C83_unit_case : let w := UO Length (f_lit (5 # 2)) "in" (eint 1) in
  finite64 (uv w) /\ sized 10 (SFR (uv w)) /\ fits_unit is_int 10 w "cm" = Some 6%nat.
Proof. exact inches_fit. Qed.
Example C83_temperature_case : let w := UO Temperature (f_lit (251 # 10)) "C" (eint 1) in
  uc w = Temperature /\ un w = tname TC /\ ue w = eint 1 /\ finite64 (uv w) /\ sized 900 (SFR (uv w)).
Proof. exact warm_case. Qed.

(** ** C83: the range is needed

    The operands and the exact result are in range, a number in between is not. *)
Theorem C83_overflow : exists enc e x, no_sums e /\ leaves (held enc (fun _ => 600%Z)) e /\
  eval e = Ok (VUnit (UO Length x "m" (eint 1))) /\ sized 600 x /\
  beval f_pow enc e = Ok (VUnit (UO Length (S754_infinity false) "m" (eint 1))).
Proof. exact overflow. Qed.
Print Assumptions C83_overflow.
Theorem C83_underflow : exists enc e x, no_sums e /\ leaves (held enc (fun _ => 600%Z)) e /\
  eval e = Ok (VUnit (UO Length x "m" (eint 1))) /\ sized 600 x /\
  beval f_pow enc e = Raise EZeroDivisionError.
Proof. exact underflow. Qed.
Print Assumptions C83_underflow.

(** ** C100: sums and differences

    [rounded64 v r] : r is the binary64 number nearest to v, the even one of two;
    infinity if v is out of range. *)
Theorem C100_operations : forall x y, finite64 x -> finite64 y ->
  rounded64 (SFR x + SFR y) (SFadd 53 1024 x y) /\ rounded64 (SFR x - SFR y) (SFsub 53 1024 x y) /\
  rounded64 (SFR x * SFR y) (SFmul 53 1024 x y) /\ (SFR y <> 0 -> rounded64 (SFR x / SFR y) (SFdiv 53 1024 x y)).
Proof. exact operations. Qed.
Print Assumptions C100_operations.
(** [fits_any] : as [fits], of the sizes of absolute values with every difference a
    sum.  [steady e] : nothing is divided by or raised that has a difference or a
    sum of mixed signs in it.  [off u n (bulk e)] as in C99.  The result may be
    tiny, or zero where the exact one is not. *)
Theorem C100_any : forall allowed sz u p, / 2 ^ 53 + / 2 ^ 75 <= u <= / 2 ^ 40 -> pow_good u allowed p ->
  forall enc e n, steady e -> leaves (held enc sz) e -> fits_any allowed sz e = Some n ->
  like (off u n (bulk e)) (eval e) (beval p enc e).
Proof. exact binary_any. Qed.
Print Assumptions C100_any.
Example C100_powers : / 2 ^ 53 + / 2 ^ 75 <= u64 <= / 2 ^ 40 /\ pow_good u64 is_int f_pow.
Proof. exact (conj u64_range f_pow_u64). Qed.
(** 2 W/(m K), 5 m^2, 300 K and 310 K, 20 cm. *)
Example C100_case : steady wall_expr /\ leaves (held enc_int (fun _ => 10%Z)) wall_expr /\ fits_any is_int (fun _ => 10%Z) wall_expr = Some 9%nat.
Proof. exact wall_fits. Qed.
Example C100_numbers : forall allowed sz k T1 T2 A d, (forall x, 0 <= sz x <= 240)%Z ->
  fits_any allowed sz (heat_expr (VNum k) (VNum T1) (VNum T2) (VNum A) (VNum d)) = Some 4%nat.
Proof. exact heat_number_fits. Qed.
(** The library's walls, for every unknown, and the Grashof number. *)
Theorem C100_heat : forall u allowed p, / 2 ^ 53 + / 2 ^ 75 <= u <= / 2 ^ 40 -> pow_good u allowed p -> forall enc sz k T1 T2 A d q,
  computed u allowed p enc sz (planar_heat [AVal k; AVal T1; AVal T2; AVal A; AVal d] []) (heat_expr k T1 T2 A d) /\
  computed u allowed p enc sz (planar_heat [AVal k; AVal T1; AVal T2; AVal A; ANone; AVal q] []) (heat_d_expr k T1 T2 A q) /\
  computed u allowed p enc sz (planar_heat [AVal k; AVal T1; ANone; AVal A; AVal d; AVal q] []) (heat_T2_expr k T1 A d q) /\
  computed u allowed p enc sz (planar_heat [AVal k; ANone; AVal T2; AVal A; AVal d; AVal q] []) (heat_T1_expr k T2 A d q).
Proof. exact heat_computed. Qed.
Print Assumptions C100_heat.
Theorem C100_flux : forall u allowed p, / 2 ^ 53 + / 2 ^ 75 <= u <= / 2 ^ 40 -> pow_good u allowed p -> forall enc sz k T1 T2 d q,
  computed u allowed p enc sz (planar_flux [AVal k; AVal T1; AVal T2; AVal d] []) (flux_expr k T1 T2 d) /\
  computed u allowed p enc sz (planar_flux [AVal k; AVal T1; AVal T2; ANone; AVal q] []) (flux_d_expr k T1 T2 q) /\
  computed u allowed p enc sz (planar_flux [AVal k; AVal T1; ANone; AVal d; AVal q] []) (flux_T2_expr k T1 d q) /\
  computed u allowed p enc sz (planar_flux [AVal k; ANone; AVal T2; AVal d; AVal q] []) (flux_T1_expr k T2 d q).
Proof. exact flux_computed. Qed.
Print Assumptions C100_flux.
Theorem C100_mass : forall u allowed p, / 2 ^ 53 + / 2 ^ 75 <= u <= / 2 ^ 40 -> pow_good u allowed p -> forall enc sz D A C2 C1 t,
  computed u allowed p enc sz (planar_mass_transfer D A C2 C1 t) (heat_expr D C1 C2 A t) /\
  computed u allowed p enc sz (planar_mass_flux D C2 C1 t) (flux_expr D C1 C2 t).
Proof. exact mass_computed. Qed.
Print Assumptions C100_mass.
Theorem C100_grashof : forall u allowed p, / 2 ^ 53 + / 2 ^ 75 <= u <= / 2 ^ 40 -> pow_good u allowed p -> forall enc sz g beta T2 T1 L rho mu,
  computed u allowed p enc sz (grashof g beta T2 T1 L rho mu) (grashof_expr g beta T2 T1 L rho mu).
Proof. exact grashof_computed. Qed.
Print Assumptions C100_grashof.
(** All digits can be lost: (2^53 m + 1 m) - 2^53 m is 0 m. *)
Theorem C100_lost : exists enc sz e, steady e /\ leaves (held enc sz) e /\ fits_any is_int sz e = Some 2%nat /\
  eval e = Ok (metre 1) /\ exists r, beval f_pow enc e = Ok (VUnit (UO Length r "m" (eint 1))) /\ SFR r = 0.
Proof. exact digits_lost. Qed.
Print Assumptions C100_lost.
