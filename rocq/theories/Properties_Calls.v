(** * Properties of the calls of exp, log, sin and erf (C108)

    [calls a m P [] t] : in the run of the formula [t] in the arithmetic [a] with
    the functions [m], every argument a function is called with satisfies [P].
    [accurate_at v erf m f x] : the function [f] of [m] is within a relative [v] of
    the truth at [x].  [exp_below_0] : the argument of exp is not positive. *)
From Coq Require Import String List ZArith QArith Qcanon Bool Reals Lra.
From Verif Require Import Py Num UnitsData UnitsStruct Units Expr Solve Formulas Rounding RoundSpec SumSpec Func FuncSpec FuncErr FuncCases FuncCalls FuncCallFacts FuncPulseCases FuncLocal.
Import ListNotations.
Local Open Scope string_scope.
Local Open Scope list_scope.
Local Open Scope R_scope.

(** Functions that are accurate where they are called are as good as functions
    that are accurate everywhere, so that the bounds of C107 hold. *)
Theorem C108_local : forall u v L erf a m t, 0 <= v -> near1 u PI (m_pi m) -> (forall x y, Rabs (erf y - erf x) <= L * Rabs (y - x)) ->
  calls a m (accurate_at v erf m) [] t -> exists m', accurate_fun u v L erf m' /\ floats a m t = floats a m' t.
Proof. exact calls_local. Qed.
Print Assumptions C108_local.
(** What the functions do elsewhere does not matter. *)
Theorem C108_same : forall a m m' (P : fname -> R -> Prop), m_pi m = m_pi m' ->
  (forall f x, (f = NLog -> 0 < x) -> P f x -> computed m f x = computed m' f x) ->
  forall t env, calls a m P env t -> runs a m env t = runs a m' env t.
Proof. exact same_calls. Qed.
Print Assumptions C108_same.

(** exp is never called with a positive number where the quantities are not
    negative, so math.exp cannot overflow. *)
Theorem C108_lumped : forall u, 0 <= u <= / 100 -> forall a, accurate u a -> forall m Tf To h A rho cP V t,
  not_negative h -> not_negative A -> not_negative rho -> not_negative cP -> not_negative V -> not_negative t ->
  calls a m exp_below_0 [] (lumped_term Tf To h A rho cP V t).
Proof. exact lumped_calls. Qed.
Print Assumptions C108_lumped.
Theorem C108_slab : forall u, 0 <= u <= / 100 -> forall a, accurate u a -> forall m Ts To x s k rho Cp t n,
  not_negative k -> not_negative rho -> not_negative Cp -> not_negative t ->
  calls a m exp_below_0 [] (finite_slab_term Ts To x s k rho Cp t n).
Proof. exact slab_calls. Qed.
Print Assumptions C108_slab.
Theorem C108_heat : forall u, 0 <= u <= / 100 -> forall a, accurate u a -> forall m s rho cp Ts To k t area n,
  not_negative k -> not_negative rho -> not_negative cp -> not_negative t ->
  calls a m exp_below_0 [] (total_heat_term s rho cp Ts To k t area n).
Proof. exact heat_calls. Qed.
Print Assumptions C108_heat.
Theorem C108_three : forall u, 0 <= u <= / 100 -> forall a, accurate u a -> forall m mass d D t shape,
  not_negative D -> not_negative t -> calls a m exp_below_0 [] (three_d_term mass d D t shape).
Proof. exact three_d_calls. Qed.
Print Assumptions C108_three.
Theorem C108_two : forall u, 0 <= u <= / 100 -> forall a, accurate u a -> forall m mass len d D t,
  not_negative D -> not_negative t -> calls a m exp_below_0 [] (two_d_term mass len d D t).
Proof. exact two_d_calls. Qed.
Print Assumptions C108_two.
Theorem C108_one : forall u, 0 <= u <= / 100 -> forall a, accurate u a -> forall m mass area d D t,
  not_negative D -> not_negative t -> calls a m exp_below_0 [] (one_d_term mass area d D t).
Proof. exact one_d_calls. Qed.
Print Assumptions C108_one.
Theorem C108_rate : forall u, 0 <= u <= / 100 -> forall a, accurate u a -> forall m A Ea R_ T,
  not_negative Ea -> not_negative R_ -> not_negative T -> calls a m exp_below_0 [] (rate_term A Ea R_ T).
Proof. exact rate_calls. Qed.
Print Assumptions C108_rate.
Example C108_signs_case : not_negative activation /\ not_negative gas /\ not_negative (kelvin 300) /\ not_negative (diffusion 2) /\ not_negative (seconds 1).
Proof. cbn. lra. Qed.
(** With a negative activation energy it is: math.exp raises OverflowError from
    709.8 on, the model (Formulas.v) answers a number. *)
Theorem C108_rate_refuted : forall u a m, 0 <= u <= / 100 -> accurate u a ->
  ~ calls a m (fun f x => f = NExp -> x <= 709.8) [] (rate_term (VNum 1) (VNum (-800)) (VNum 1) (VNum 1)).
Proof. exact rate_overflow. Qed.
Print Assumptions C108_rate_refuted.

(** The bounds of C107 for an exp that is accurate only up to [B]: floats lose
    relative accuracy below -708. *)
Theorem C108_rate_range : forall u v B, 0 <= u <= / 100 -> 0 <= v <= / 100 -> forall a, accurate u a -> forall m, near1 u PI (m_pi m) ->
  (forall x, Rabs x <= B -> near1 v (exp x) (m_exp m x)) ->
  forall o s A vA Ea R_ T x, arrhenius_units o = Ok s -> constant A s = Ok vA ->
  let n := INR (roundings (rate_exponent Ea R_ T)) in
  eval (rate_exponent Ea R_ T) = Ok (VNum x) -> n * u <= / 100 -> Rabs x * (n * u) <= / 100 -> 1.02 * Rabs x <= B ->
  same_outcome (near1 (1.1 * (Rabs x * (n * u) + u + v)))
    (arrhenius o [AVal (VNum A); AVal Ea; AVal R_; AVal T] []) (floats a m (rate_term vA Ea R_ T)).
Proof. exact rate_local. Qed.
Print Assumptions C108_rate_range.
(** The other hypotheses are those of C107_rate_case. *)
Example C108_rate_range_case : 1.02 * Rabs (- (50000) / (300 * 8.314)) <= 700.
Proof. exact rate_local_case. Qed.
Theorem C108_lumped_range : forall u v B, 0 <= u <= / 100 -> 0 <= v <= / 100 -> forall a, accurate u a -> forall m, near1 u PI (m_pi m) ->
  (forall x, Rabs x <= B -> near1 v (exp x) (m_exp m x)) ->
  forall Tf To h A rho cP V t s, eval (lumped_exponent h A rho cP V t) = Ok (VNum (- s)) -> 0 <= s ->
  let n := INR (roundings (lumped_exponent h A rho cP V t)) in
  n * u <= / 100 -> 1.02 * s <= B ->
  same_outcome (apart ((0.6 * (n * u) + 4 * u + 1.1 * v) * (Rabs (number (Ok Tf)) + Rabs (number (Ok To)))))
    (lumped_parameter Tf To h A rho cP V t) (floats a m (lumped_term Tf To h A rho cP V t)).
Proof. exact lumped_local. Qed.
Print Assumptions C108_lumped_range.
(** For the exponent of C107_lumped_case. *)
Example C108_lumped_range_case : 1.02 * 2 <= 700.
Proof. lra. Qed.
(** An absolute error [w] of exp on the negative numbers is enough, so that an
    underflow to 0 does no harm, however large [s]. *)
Theorem C108_lumped_underflow : forall u w, 0 <= u <= / 100 -> 0 <= w -> forall a, accurate u a -> forall m, (forall x, x <= 0 -> Rabs (m_exp m x - exp x) <= w) ->
  forall Tf To h A rho cP V t s, eval (lumped_exponent h A rho cP V t) = Ok (VNum (- s)) -> 0 <= s ->
  let n := INR (roundings (lumped_exponent h A rho cP V t)) in
  n * u <= / 100 ->
  same_outcome (apart ((0.6 * (n * u) + 4 * u + 1.1 * w) * (Rabs (number (Ok Tf)) + Rabs (number (Ok To)))))
    (lumped_parameter Tf To h A rho cP V t) (floats a m (lumped_term Tf To h A rho cP V t)).
Proof. exact lumped_absolute. Qed.
Print Assumptions C108_lumped_underflow.
Example C108_lumped_underflow_case : forall x, x <= 0 -> Rabs ((if Rle_dec x (- 700) then 0 else exp x) - exp x) <= exp (- 700).
Proof. exact lumped_absolute_case. Qed.
Theorem C108_pulse_range : forall u B, 0 <= u <= / 1000 -> forall a, accurate u a -> forall m, near1 u PI (m_pi m) ->
  (forall x, Rabs x <= B -> near1 u (exp x) (m_exp m x)) ->
  forall mass d D t K, 0 < D -> 0 < t -> 1.02 * d ^ 2 / (D * t) <= INR K -> (INR K + 12) * u <= / 100 -> INR K <= 4 * B ->
  same_outcome (near1 (1.02 * ((INR K + 12) * u))) (three_d_pulse_decay (kilograms mass) (metres d) (diffusion D) (seconds t) "sphere")
    (floats a m (three_d_term (kilograms mass) (metres d) (diffusion D) (seconds t) "sphere")).
Proof. exact pulse_local. Qed.
Print Assumptions C108_pulse_range.
Example C108_pulse_range_case : 1.02 * 2 ^ 2 / (1 * 1) <= INR 5 /\ (INR 5 + 12) * / 2 ^ 53 <= / 100 /\ INR 5 <= 4 * 700.
Proof. split; [exact (proj1 pulses_si_case)|]. split; [exact (proj2 pulses_si_case)|]. simpl INR. lra. Qed.
