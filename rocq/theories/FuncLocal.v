(** * FuncLocal: bounds with an exponential accurate on a range only *)
From Coq Require Import String List ZArith QArith Qcanon Bool Reals Lra Lia.
From Verif Require Import Py Num NumFacts UnitsData UnitsStruct Units Expr Spec Solve Rounding Formulas RoundSpec RoundFacts RoundErr RoundCases SumSpec Func FuncSpec FuncErr FuncFacts FuncBounds FuncDecay FuncCases FuncCount FuncPulse FuncCalls FuncCallFacts FuncPulseCases FuncMean.
Import ListNotations.
Local Open Scope string_scope.
Local Open Scope list_scope.
Local Open Scope R_scope.

Lemma within_size u n x y : 0 <= u <= / 100 -> INR n * u <= / 100 -> within u n x y -> Rabs y <= 1.02 * Rabs x.
Proof.
  intros hu hn (f & hf & ->). assert (h1 : 0 <= u < 1) by lra. pose proof (base_pos u h1 n) as p. assert (k : / (1 - u) ^ n <= 1.02).
  { assert (b : 1 - INR n * u <= (1 - u) ^ n).
    { clear hf p hn. induction n as [|n ih]; [cbn; lra|]. rewrite S_INR. cbn [pow]. pose proof (base_le1 u h1 n) as l. assert (u * (1 - u) ^ n <= u * 1) by (apply Rmult_le_compat_l; lra). lra. }
    replace 1.02 with (/ (/ 1.02)) by (rewrite Rinv_inv; reflexivity). apply Rinv_le_contravar; lra. }
  rewrite Rabs_mult, Rmult_comm. apply Rmult_le_compat_r; [apply Rabs_pos|]. rewrite Rabs_pos_eq; lra.
Qed.
Section Local.
Variables u v B : R.
Hypothesis hu : 0 <= u <= / 100.
Hypothesis hv : 0 <= v <= / 100.
Variable a : arith.
Hypothesis ha : accurate u a.
Variable m : funs.
Hypothesis hpi : near1 u PI (m_pi m).
Hypothesis hexp : forall x, Rabs x <= B -> near1 v (exp x) (m_exp m x).
Let nought : R -> R := fun _ => 0.
Lemma nought_flat x y : Rabs (nought y - nought x) <= 0 * Rabs (y - x).
Proof. unfold nought. rewrite Rminus_0_r, Rabs_R0. lra. Qed.
Lemma local_exponent env e x : no_sums e -> eval e = Ok (VNum x) -> INR (roundings e) * u <= / 100 -> 1.02 * Rabs x <= B ->
  calls a m (accurate_at v nought m) env (TExp (plain e)).
Proof.
  intros he hx hn hB. split; [apply product_calls; apply plain_products, he|]. unfold runs. rewrite plain_floats.
  destruct (number_known u hu a ha e x he hx) as (y & -> & w & _). cbn. apply hexp. pose proof (within_size u _ x y hu hn w). lra.
Qed.
Lemma rate_local o s A vA Ea R_ T x : arrhenius_units o = Ok s -> constant A s = Ok vA ->
  let n := INR (roundings (rate_exponent Ea R_ T)) in
  eval (rate_exponent Ea R_ T) = Ok (VNum x) -> n * u <= / 100 -> Rabs x * (n * u) <= / 100 -> 1.02 * Rabs x <= B ->
  same_outcome (near1 (1.1 * (Rabs x * (n * u) + u + v)))
    (arrhenius o [AVal (VNum A); AVal Ea; AVal R_; AVal T] []) (floats a m (rate_term vA Ea R_ T)).
Proof.
  intros ho hA n hx hn hs hB. destruct (calls_local u v 0 nought a m (rate_term vA Ea R_ T)) as (m' & h & e); [lra|exact hpi|exact nought_flat| |].
  - apply calls_mul; [exact I|]. eapply local_exponent; [cbn; tauto|eassumption..].
  - rewrite e. apply (rate_error u v 0 hu hv ltac:(lra) a ha nought m' h o s); assumption.
Qed.
Lemma lumped_local Tf To h A rho cP V t s : eval (lumped_exponent h A rho cP V t) = Ok (VNum (- s)) -> 0 <= s ->
  let n := INR (roundings (lumped_exponent h A rho cP V t)) in
  n * u <= / 100 -> 1.02 * s <= B ->
  same_outcome (apart ((0.6 * (n * u) + 4 * u + 1.1 * v) * (Rabs (number (Ok Tf)) + Rabs (number (Ok To)))))
    (lumped_parameter Tf To h A rho cP V t) (floats a m (lumped_term Tf To h A rho cP V t)).
Proof.
  intros hx hs n hn hB. destruct (calls_local u v 0 nought a m (lumped_term Tf To h A rho cP V t)) as (m' & k & e); [lra|exact hpi|exact nought_flat| |].
  - apply calls_sub; [exact I|]. apply calls_mul; [apply calls_sub; exact I|]. eapply local_exponent; [cbn; tauto|eassumption..|]. rewrite Rabs_Ropp, Rabs_pos_eq by lra. exact hB.
  - rewrite e. eapply (lumped_error u v 0 hu hv ltac:(lra) a ha nought m' k); eassumption.
Qed.
End Local.
(** The pulse in three dimensions in SI units. *)
Lemma pulse_local u B : 0 <= u <= / 1000 -> forall a, accurate u a -> forall m, near1 u PI (m_pi m) -> (forall x, Rabs x <= B -> near1 u (exp x) (m_exp m x)) ->
  forall mass d D t K, 0 < D -> 0 < t -> 1.02 * d ^ 2 / (D * t) <= INR K -> (INR K + 12) * u <= / 100 -> INR K <= 4 * B ->
  same_outcome (near1 (1.02 * ((INR K + 12) * u))) (three_d_pulse_decay (kilograms mass) (metres d) (diffusion D) (seconds t) "sphere")
    (floats a m (three_d_term (kilograms mass) (metres d) (diffusion D) (seconds t) "sphere")).
Proof.
  intros hu a ha m hpi hexp mass d D t K hD ht hK hN hB. set (nought := fun _ : R => 0).
  destruct (calls_local u u 0 nought a m (three_d_term (kilograms mass) (metres d) (diffusion D) (seconds t) "sphere")) as (m' & k & e); [lra|exact hpi|exact nought_flat| |].
  - apply calls_let; [exact I|]. intros. apply calls_let; [apply calls_mul; [exact I|]|].
    + eapply (local_exponent u u B ltac:(lra) a ha m hexp); [cbn; tauto|apply exponent_si; assumption|rewrite exponent_count; cbn [INR]; lra|].
      rewrite Rabs_Ropp, Rabs_pos_eq.
      * replace (1.02 * (d ^ 2 / (4 * D * t))) with (1.02 * d ^ 2 / (D * t) / 4) by (field; lra). lra.
      * apply Rmult_le_pos; [apply pow2_ge_0|]. left. apply Rinv_0_lt_compat, Rmult_lt_0_compat; lra.
    + intros. apply calls_let; [cbn [calls]; apply pi_calls|]. intros. apply calls_div; exact I.
  - rewrite e. destruct (pulses_si u 0 hu a ha nought m' k mass d D t 1 1 K hD ht hK hN) as (r & _). exact r.
Qed.
(** Cases. *)
Lemma rate_local_case : 1.02 * Rabs (- (50000) / (300 * 8.314)) <= 700.
Proof. rewrite Rabs_left by lra. lra. Qed.
(** With a negative activation energy exp is called where math.exp overflows. *)
Lemma rate_overflow u a m : 0 <= u <= / 100 -> accurate u a ->
  ~ calls a m (fun f x => f = NExp -> x <= 709.8) [] (rate_term (VNum 1) (VNum (-800)) (VNum 1) (VNum 1)).
Proof.
  intros hu ha h. assert (hx : eval (rate_exponent (VNum (-800)) (VNum 1) (VNum 1)) = Ok (VNum 800)).
  { transitivity (rmap (@VNum R) (@pydiv R Rnum (- -800) (1 * 1))); [reflexivity|]. rewrite pydiv_r by lra. cbn [rmap]. f_equal. f_equal. field. }
  destruct (number_known u hu a ha _ 800 (conj I (conj I I) : no_sums (rate_exponent (VNum (-800)) (VNum 1) (VNum 1))) hx) as (y & ey & (f & hf & e) & _).
  destruct h as (_ & h). cbn [on_result runs teval bind] in h. destruct h as (_ & h). unfold runs in h. rewrite plain_floats, ey in h. cbn in h. specialize (h eq_refl).
  change (roundings _) with 2%nat in hf. assert (k : 0.98 <= (1 - u) ^ 2) by (cbn; nra). subst y. lra.
Qed.
(** An exp with an absolute error only, as where it underflows. *)
Lemma lumped_absolute u w : 0 <= u <= / 100 -> 0 <= w -> forall a, accurate u a -> forall m, (forall x, x <= 0 -> Rabs (m_exp m x - exp x) <= w) ->
  forall Tf To h A rho cP V t s, eval (lumped_exponent h A rho cP V t) = Ok (VNum (- s)) -> 0 <= s ->
  let n := INR (roundings (lumped_exponent h A rho cP V t)) in
  n * u <= / 100 ->
  same_outcome (apart ((0.6 * (n * u) + 4 * u + 1.1 * w) * (Rabs (number (Ok Tf)) + Rabs (number (Ok To)))))
    (lumped_parameter Tf To h A rho cP V t) (floats a m (lumped_term Tf To h A rho cP V t)).
Proof.
  intros hu hw a ha m hm Tf To h A rho cP V t s he hs nr hn. unfold nr in *. clear nr. rewrite <- (run_lumped (fun _ => 0)). set (n := roundings _) in *.
  destruct (number_known u hu a ha (lumped_exponent h A rho cP V t) (- s) ltac:(cbn; tauto) he) as (y & ey & wy & k). fold n in k, wy.
  assert (h1 : 0 <= u < 1) by lra. assert (hy : y <= 0) by (destruct (within_signs u hu n (- s) y wy) as (_ & q); apply q; lra).
  assert (hx : accurate_fun u 0 0 (fun _ => 0) (Funs PI exp ln sin (fun _ => 0))).
  { assert (z : forall c, near1 0 c c) by (intro c; unfold near1; rewrite Rminus_diag_eq, Rabs_R0 by reflexivity; lra). unfold accurate_fun. cbn.
    split; [unfold near1; rewrite Rminus_diag_eq, Rabs_R0 by reflexivity; apply Rmult_le_pos; [lra|apply Rabs_pos]|]. repeat (split; [intros; apply z|]). intros. rewrite Rminus_diag_eq, Rabs_R0 by reflexivity. lra. }
  assert (hnu : 0 <= INR n * u) by (apply Rmult_le_pos; [apply pos_INR|lra]).
  assert (hE : 0 <= exp (- s) <= 1).
  { pose proof (exp_pos (- s)). split; [lra|]. rewrite <- exp_0. destruct hs as [hs| <-]; [left; apply exp_increasing; lra|rewrite Ropp_0; lra]. }
  assert (hF : Rabs (m_exp m y - exp (- s)) <= 0.54 * (INR n * u) + w).
  { pose proof (within_env u 0 0 hu ltac:(lra) ltac:(lra) a ha (fun _ => 0) _ hx _ y _ (TExp (TVar 0)) k) as r.
    cbn [teval nth_error bind on_number rmap fexp Rfn Ffn Efn] in r. inversion r as [p q z hz e1 e2 e3| |]; subst. cbn [relv] in hz. destruct hz as (_ & _ & hz).
    unfold more in hz. cbn [fst snd m_exp] in hz. pose proof (growth_bound u n ltac:(lra) hn) as (g0 & g1). set (g := / (1 - u) ^ n - 1) in *.
    rewrite Rabs_Ropp, (Rabs_pos_eq s) in hz by lra. rewrite (Rabs_pos_eq (exp (- s))) in hz by lra.
    destruct (decay_numbers s g hs ltac:(lra)) as (d1 & d2). set (Q := exp (- s) * exp (g * s)) in *.
    replace (exp (- s) * (exp (g * s) - 1)) with (Q - exp (- s)) in hz by (unfold Q; ring).
    replace (m_exp m y - exp (- s)) with ((m_exp m y - exp y) + (exp y - exp (- s))) by ring. eapply Rle_trans; [apply Rabs_triang|]. specialize (hm y hy). lra. }
  eapply wider; [|unfold exact, floats, lumped_term; cbn [teval bind]; rewrite plain_is, plain_floats, he, ey; cbn [bind on_number rmap fexp Rfn Ffn];
    pose proof (mix_outcome u hu a ha Tf To (exp (- s)) (m_exp m y) (0.54 * (INR n * u) + w) hE ltac:(lra) hF) as r; destruct (@py_sub R Rnum Tf To), (@py_sub R (Fnum a) Tf To); exact r].
  apply Rmult_le_compat_r; [pose proof (Rabs_pos (number (Ok Tf))); pose proof (Rabs_pos (number (Ok To))); lra|lra].
Qed.
(** An exp that is 0 below -700. *)
Lemma lumped_absolute_case : forall x, x <= 0 -> Rabs ((if Rle_dec x (- 700) then 0 else exp x) - exp x) <= exp (- 700).
Proof.
  intros x _. destruct (Rle_dec x (- 700)) as [h|h].
  - rewrite Rminus_0_l, Rabs_Ropp, Rabs_pos_eq by (left; apply exp_pos). destruct h as [h| ->]; [left; apply exp_increasing, h|lra].
  - rewrite Rminus_diag_eq, Rabs_R0 by reflexivity. left. apply exp_pos.
Qed.
