(** * Properties of the formulas with exp, log, sin and erf in inexact arithmetic (C107)

    [accurate u a] : every operation of the arithmetic [a] has a relative error of
    at most [u].  [accurate_fun u v L erf m] : the functions of [m] have relative
    errors of at most [v] against exp, ln, sin and [erf], and pi one of [u]; [erf]
    changes by at most [L] times its argument.  [exact erf t] and [floats a m t]
    run the formula [t] in exact arithmetic and in [a] and [m].  [apart d x y] :
    |y - x| <= d.  [near1 w x y] : |y - x| <= w |x|. *)
From Coq Require Import String List ZArith QArith Qcanon Bool Reals Lra.
From Verif Require Import Py Num UnitsData UnitsStruct Units Expr Solve Formulas Rounding RoundSpec RoundCases SumSpec Func FuncSpec FuncErr FuncFacts FuncBounds FuncDecay FuncMean FuncCases FuncCount FuncPulse FuncPulseCases.
Import ListNotations.
Local Open Scope string_scope.
Local Open Scope list_scope.
Local Open Scope R_scope.

(** Any formula: the error carried along with the numbers. *)
Theorem C107_any : forall u v L, 0 <= u < 1 -> 0 <= v -> 0 <= L -> forall a, accurate u a -> forall erf m, accurate_fun u v L erf m ->
  forall t d, error_bound u v L erf t = Some d -> same_outcome (apart d) (exact erf t) (floats a m t).
Proof. exact formula_error. Qed.
Print Assumptions C107_any.
Example C107_arithmetic : accurate (/ 2 ^ 53) arith53 /\ accurate_fun (/ 2 ^ 53) (/ 2 ^ 53) 1 sin funs53.
Proof. exact (conj arith53_accurate funs53_accurate). Qed.
Example C107_any_case : exists d, error_bound (/ 2 ^ 53) (/ 2 ^ 53) 1 sin (lumped_term (kelvin 300) (kelvin 400) one one one one one (VNum 2)) = Some d.
Proof. exact lumped_bounded. Qed.
(** The formulas are the library's. *)
Theorem C107_conduction : forall erf,
  (forall k T1 T2 length r2 r1, exact erf (pipe_term k T1 T2 length r2 r1) = pipe_heat k T1 T2 length r2 r1) /\
  (forall T0A T1A T0B T1B, exact erf (log_mean_term T0A T1A T0B T1B) = deltat_logmean T0A T1A T0B T1B false) /\
  (forall Ts To z time rho Cp k, exact erf (semi_infinite_term Ts To z time rho Cp k) = semi_infinite_slab_conduction erf Ts To z time rho Cp k) /\
  (forall Tf To h A rho cP V time, exact erf (lumped_term Tf To h A rho cP V time) = lumped_parameter Tf To h A rho cP V time) /\
  (forall Ts To x s k rho Cp time n, exact erf (finite_slab_term Ts To x s k rho Cp time n) = finite_slab_conduction Ts To x s k rho Cp time n) /\
  (forall s rho cp Ts To k time area n, exact erf (total_heat_term s rho cp Ts To k time area n) = finite_slab_total_heat s rho cp Ts To k time area n).
Proof.
  exact (fun erf => conj (run_pipe erf) (conj (run_log_mean erf) (conj (run_semi_infinite erf) (conj (run_lumped erf) (conj (run_finite_slab erf) (run_total_heat erf)))))).
Qed.
Print Assumptions C107_conduction.
Theorem C107_diffusion : forall erf,
  (forall D r2 r1 C2 C1 L, exact erf (pipe_term D C1 C2 L r2 r1) = pipe_mass_transfer D r2 r1 C2 C1 L) /\
  (forall Cs Co z D t, exact erf (semi_infinite_diffusion_term Cs Co z D t) = semi_infinite_slab_diffusion erf Cs Co z D t) /\
  (forall Cs Co a z D t n, exact erf (finite_diffusion_term Cs Co a z D t n) = finite_slab_diffusion erf Cs Co a z D t n) /\
  (forall m d D t shape, exact erf (three_d_term m d D t shape) = three_d_pulse_decay m d D t shape) /\
  (forall m L d D t, exact erf (two_d_term m L d D t) = two_d_pulse_decay m L d D t) /\
  (forall m A d D t, exact erf (one_d_term m A d D t) = one_d_pulse_decay m A d D t).
Proof.
  exact (fun erf => conj (run_pipe_mass erf) (conj (run_semi_diffusion erf) (conj (run_finite_diffusion erf) (conj (run_three_d erf) (conj (run_two_d erf) (run_one_d erf)))))).
Qed.
Print Assumptions C107_diffusion.
Theorem C107_arrhenius : forall erf o s A vA, arrhenius_units o = Ok s -> constant A s = Ok vA ->
  (forall Ea R_ T, exact erf (rate_term vA Ea R_ T) = arrhenius o [AVal (VNum A); AVal Ea; AVal R_; AVal T] []) /\
  (forall R_ T k, exact erf (energy_term vA R_ T k) = arrhenius o [AVal (VNum A); ANone; AVal R_; AVal T; AVal k] []) /\
  (forall Ea R_ k, exact erf (rate_temperature_term vA Ea R_ k) = arrhenius o [AVal (VNum A); AVal Ea; AVal R_; ANone; AVal k] []).
Proof.
  exact (fun erf o s A vA h1 h2 => conj (fun Ea R_ T => run_rate erf o s A vA Ea R_ T h1 h2) (conj (fun R_ T k => run_energy erf o s A vA R_ T k h1 h2) (fun Ea R_ k => run_temperature erf o s A vA Ea R_ k h1 h2))).
Qed.
Print Assumptions C107_arrhenius.
(** What the errors come to.  A rate constant: the errors of its exponent count as
    often as the exponent is large. *)
Theorem C107_rate : forall u v L, 0 <= u <= / 100 -> 0 <= v <= / 100 -> 0 <= L -> forall a, accurate u a -> forall erf m, accurate_fun u v L erf m ->
  forall o s A vA Ea R_ T x, arrhenius_units o = Ok s -> constant A s = Ok vA ->
  let n := INR (roundings (rate_exponent Ea R_ T)) in
  eval (rate_exponent Ea R_ T) = Ok (VNum x) -> n * u <= / 100 -> Rabs x * (n * u) <= / 100 ->
  same_outcome (near1 (1.1 * (Rabs x * (n * u) + u + v)))
    (arrhenius o [AVal (VNum A); AVal Ea; AVal R_; AVal T] []) (floats a m (rate_term vA Ea R_ T)).
Proof. exact rate_error. Qed.
Print Assumptions C107_rate.
Example C107_rate_case : arrhenius_units (eint 1) = Ok "s^-1" /\ (exists vA, constant 1000 "s^-1" = Ok vA) /\
  eval (rate_exponent activation gas (kelvin 300)) = Ok (VNum (- (50000) / (300 * 8.314))) /\ roundings (rate_exponent activation gas (kelvin 300)) = 2%nat /\
  INR 2 * / 2 ^ 53 <= / 100 /\ Rabs (- (50000) / (300 * 8.314)) * (INR 2 * / 2 ^ 53) <= / 100.
Proof. exact rate_case. Qed.
(** No multiple of the rounding error bounds the rate constant for every exponent. *)
Theorem C107_rate_uniform_refuted : forall u K, 0 < u < 1 -> K * u < 1 ->
  exists a m vA E, accurate u a /\ accurate_fun u 0 1 sin m /\ constant 1 "s^-1" = Ok vA /\ 0 < E /\
  ~ same_outcome (near1 (K * u)) (arrhenius (eint 1) [AVal (VNum 1); AVal (VNum E); AVal (VNum 1); AVal (VNum 1)] [])
      (floats a m (rate_term vA (VNum E) (VNum 1) (VNum 1))).
Proof. exact rate_uniform. Qed.
Print Assumptions C107_rate_uniform_refuted.
(** A cooling body: the exponent may be as large as it likes. *)
Theorem C107_lumped : forall u v L, 0 <= u <= / 100 -> 0 <= v <= / 100 -> 0 <= L -> forall a, accurate u a -> forall erf m, accurate_fun u v L erf m ->
  forall Tf To h A rho cP V t s, eval (lumped_exponent h A rho cP V t) = Ok (VNum (- s)) -> 0 <= s ->
  let n := INR (roundings (lumped_exponent h A rho cP V t)) in
  n * u <= / 100 ->
  same_outcome (apart ((0.6 * (n * u) + 4 * u + 1.1 * v) * (Rabs (number (Ok Tf)) + Rabs (number (Ok To)))))
    (lumped_parameter Tf To h A rho cP V t) (floats a m (lumped_term Tf To h A rho cP V t)).
Proof. exact lumped_error. Qed.
Print Assumptions C107_lumped.
Example C107_lumped_case : eval (lumped_exponent one one one one one (VNum 2)) = Ok (VNum (- 2)) /\
  INR (roundings (lumped_exponent one one one one one (VNum 2))) * / 2 ^ 53 <= / 100.
Proof. exact lumped_case. Qed.
(** A half-space: [x], the argument of erf, lies where erf is between 0 and 1. *)
Theorem C107_half_space : forall u v L, 0 <= u <= / 100 -> 0 <= v <= / 100 -> 0 <= L -> forall a, accurate u a -> forall erf m, accurate_fun u v L erf m ->
  forall Ts To z t rho Cp k x, eval (reach_heat z k rho Cp t) = Ok (VNum x) -> 0 <= erf x <= 1 ->
  let n := INR (roundings (reach_heat z k rho Cp t)) in
  n * u <= / 100 ->
  same_outcome (apart ((1.1 * (L * Rabs x * (n * u)) + 4 * u + 1.1 * v) * (Rabs (number (Ok Ts)) + Rabs (number (Ok To)))))
    (semi_infinite_slab_conduction erf Ts To z t rho Cp k) (floats a m (semi_infinite_term Ts To z t rho Cp k)).
Proof. exact semi_heat_error. Qed.
Print Assumptions C107_half_space.
Theorem C107_half_space_mass : forall u v L, 0 <= u <= / 100 -> 0 <= v <= / 100 -> 0 <= L -> forall a, accurate u a -> forall erf m, accurate_fun u v L erf m ->
  forall Cs Co z D t x, eval (reach z D t) = Ok (VNum x) -> 0 <= erf x <= 1 ->
  let n := INR (roundings (reach z D t)) in
  n * u <= / 100 ->
  same_outcome (apart ((1.1 * (L * Rabs x * (n * u)) + 4 * u + 1.1 * v) * (Rabs (number (Ok Cs)) + Rabs (number (Ok Co)))))
    (semi_infinite_slab_diffusion erf Cs Co z D t) (floats a m (semi_infinite_diffusion_term Cs Co z D t)).
Proof. exact semi_diffusion_error. Qed.
Print Assumptions C107_half_space_mass.
Example C107_half_space_case : exists x, eval (reach one one one) = Ok (VNum x) /\ eval (reach_heat one one one one one) = Ok (VNum x) /\ 0 <= sin x <= 1 /\
  INR (roundings (reach one one one)) * / 2 ^ 53 <= / 100 /\ INR (roundings (reach_heat one one one one one)) * / 2 ^ 53 <= / 100.
Proof. exact reach_case. Qed.
(** The log mean: the errors grow as the two differences come close. *)
Theorem C107_log_mean : forall u v L, 0 <= u <= / 100 -> 0 <= v <= / 100 -> forall a, accurate u a -> forall erf m, accurate_fun u v L erf m ->
  forall T0A T1A T0B T1B p q, py_sub T0A T1B = Ok p -> py_sub T1A T0B = Ok q ->
  let x := number (Ok p) in let y := number (Ok q) in
  0 < x -> 0 < y -> x <> y -> (x + y) / Rabs (x - y) * u <= / 300 ->
  same_outcome (near1 (7 * ((x + y) / Rabs (x - y) * u) + 1.1 * v))
    (deltat_logmean T0A T1A T0B T1B false) (floats a m (log_mean_term T0A T1A T0B T1B)).
Proof. exact mean_error. Qed.
Print Assumptions C107_log_mean.
Example C107_log_mean_case : py_sub (kelvin 400) (kelvin 310) = Ok (kelvin 90) /\ py_sub (kelvin 350) (kelvin 300) = Ok (kelvin 50) /\
  (90 + 50) / Rabs (90 - 50) * / 2 ^ 53 <= / 300.
Proof. exact mean_case. Qed.
(** Pulses.  An exponential whose argument [x] took n roundings counts for about
    |x| n roundings, whatever K is at least that; the rest is a product. *)
Theorem C107_pulse_three : forall u L, 0 <= u <= / 100 -> forall a, accurate u a -> forall erf m, accurate_fun u u L erf m ->
  forall d D t x, eval (pulse_exponent d D t) = Ok (VNum x) ->
  let n := INR (roundings (pulse_exponent d D t)) in
  n * u <= / 100 -> forall K, 1.02 * Rabs x * n <= INR K ->
  forall mass shape, let N := INR (roundings_from [VNum (S K); VNum 1%nat] (three_d_shape mass D t shape)) in
  N * u <= / 100 ->
  same_outcome (near1 (1.02 * (N * u))) (three_d_pulse_decay mass d D t shape) (floats a m (three_d_term mass d D t shape)).
Proof. exact three_d_error. Qed.
Print Assumptions C107_pulse_three.
Theorem C107_pulse_two : forall u L, 0 <= u <= / 100 -> forall a, accurate u a -> forall erf m, accurate_fun u u L erf m ->
  forall d D t x, eval (pulse_exponent d D t) = Ok (VNum x) ->
  let n := INR (roundings (pulse_exponent d D t)) in
  n * u <= / 100 -> forall K, 1.02 * Rabs x * n <= INR K ->
  forall mass len, let N := INR (roundings_from [VNum (S K); VNum 1%nat] (two_d_shape mass len D t)) in
  N * u <= / 100 ->
  same_outcome (near1 (1.02 * (N * u))) (two_d_pulse_decay mass len d D t) (floats a m (two_d_term mass len d D t)).
Proof. exact two_d_error. Qed.
Print Assumptions C107_pulse_two.
Theorem C107_pulse_one : forall u L, 0 <= u <= / 100 -> forall a, accurate u a -> forall erf m, accurate_fun u u L erf m ->
  forall d D t x, eval (pulse_exponent d D t) = Ok (VNum x) ->
  let n := INR (roundings (pulse_exponent d D t)) in
  n * u <= / 100 -> forall K, 1.02 * Rabs x * n <= INR K ->
  forall mass area, let N := INR (roundings_from [VNum (S K); VNum 1%nat] (one_d_shape mass area D t)) in
  N * u <= / 100 ->
  same_outcome (near1 (1.02 * (N * u))) (one_d_pulse_decay mass area d D t) (floats a m (one_d_term mass area d D t)).
Proof. exact one_d_error. Qed.
Print Assumptions C107_pulse_one.
(** The three in kg, m and s, with nothing left to count. *)
Theorem C107_pulse_si : forall u L, 0 <= u <= / 1000 -> forall a, accurate u a -> forall erf m, accurate_fun u u L erf m ->
  forall mass d D t len area K, 0 < D -> 0 < t -> 1.02 * d ^ 2 / (D * t) <= INR K -> (INR K + 12) * u <= / 100 ->
  same_outcome (near1 (1.02 * ((INR K + 12) * u))) (three_d_pulse_decay (kilograms mass) (metres d) (diffusion D) (seconds t) "sphere")
    (floats a m (three_d_term (kilograms mass) (metres d) (diffusion D) (seconds t) "sphere")) /\
  same_outcome (near1 (1.02 * ((INR K + 9) * u))) (two_d_pulse_decay (kilograms mass) (metres len) (metres d) (diffusion D) (seconds t))
    (floats a m (two_d_term (kilograms mass) (metres len) (metres d) (diffusion D) (seconds t))) /\
  same_outcome (near1 (1.02 * ((INR K + 10) * u))) (one_d_pulse_decay (kilograms mass) (square_metres area) (metres d) (diffusion D) (seconds t))
    (floats a m (one_d_term (kilograms mass) (square_metres area) (metres d) (diffusion D) (seconds t))).
Proof. exact pulses_si. Qed.
Print Assumptions C107_pulse_si.
Example C107_pulse_si_case : 1.02 * 2 ^ 2 / (1 * 1) <= INR 5 /\ (INR 5 + 12) * / 2 ^ 53 <= / 100.
Proof. exact pulses_si_case. Qed.
(** Pipes.  A logarithm of a quotient [x] of n roundings counts for about n / |ln x|
    roundings, so the bound grows as the two radii come close. *)
Theorem C107_pipe : forall u L, 0 <= u <= / 100 -> forall a, accurate u a -> forall erf m, accurate_fun u u L erf m ->
  forall k T1 T2 len r2 r1 p x, py_sub T2 T1 = Ok p -> eval (EDiv (ELeaf r2) (ELeaf r1)) = Ok (VNum x) -> 0 < x -> x <> 1 ->
  let n := INR (roundings (EDiv (ELeaf r2) (ELeaf r1))) in
  n * u <= / 100 -> forall K, 1.05 * n <= INR K * Rabs (ln x) -> INR K * u <= / 50 ->
  let N := INR (roundings_from [VNum 1%nat; once p; VNum (S K)] (pipe_shape k len)) in
  N * u <= / 100 ->
  same_outcome (near1 (1.02 * (N * u))) (pipe_heat k T1 T2 len r2 r1) (floats a m (pipe_term k T1 T2 len r2 r1)).
Proof. exact pipe_error. Qed.
Print Assumptions C107_pipe.
Theorem C107_pipe_mass : forall u L, 0 <= u <= / 100 -> forall a, accurate u a -> forall erf m, accurate_fun u u L erf m ->
  forall D C1 C2 len r2 r1 p x, py_sub C2 C1 = Ok p -> eval (EDiv (ELeaf r2) (ELeaf r1)) = Ok (VNum x) -> 0 < x -> x <> 1 ->
  let n := INR (roundings (EDiv (ELeaf r2) (ELeaf r1))) in
  n * u <= / 100 -> forall K, 1.05 * n <= INR K * Rabs (ln x) -> INR K * u <= / 50 ->
  let N := INR (roundings_from [VNum 1%nat; once p; VNum (S K)] (pipe_shape D len)) in
  N * u <= / 100 ->
  same_outcome (near1 (1.02 * (N * u))) (pipe_mass_transfer D r2 r1 C2 C1 len) (floats a m (pipe_term D C1 C2 len r2 r1)).
Proof. exact pipe_mass_error. Qed.
Print Assumptions C107_pipe_mass.
Theorem C107_pipe_si : forall u L, 0 <= u <= / 1000 -> forall a, accurate u a -> forall erf m, accurate_fun u u L erf m ->
  forall k T1 T2 len r2 r1 K, 0 < r1 -> 0 < r2 -> r1 <> r2 -> 1.05 <= INR K * Rabs (ln (r2 / r1)) -> (INR K + 8) * u <= / 100 ->
  same_outcome (near1 (1.02 * ((INR K + 8) * u))) (pipe_heat (conductivity k) (kelvin T1) (kelvin T2) (metres len) (metres r2) (metres r1))
    (floats a m (pipe_term (conductivity k) (kelvin T1) (kelvin T2) (metres len) (metres r2) (metres r1))).
Proof. exact pipe_si. Qed.
Print Assumptions C107_pipe_si.
Example C107_pipe_si_case : 1.05 <= INR 3 * Rabs (ln (2 / 1)) /\ (INR 3 + 8) * / 2 ^ 53 <= / 100.
Proof. exact pipe_si_case. Qed.
