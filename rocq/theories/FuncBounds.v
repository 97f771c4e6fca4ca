(** * FuncBounds: what the carried errors come to *)
From Coq Require Import String List ZArith QArith Qcanon Bool Reals Qreals Lia Lra.
From Verif Require Import Py Num NumFacts UnitsData UnitsStruct Units Expr Solve Formulas Rounding RoundSpec RoundFacts RoundErr RoundCases SumSpec SumErr Func FuncSpec FuncErr FuncFacts.
Import ListNotations.
Local Open Scope string_scope.
Local Open Scope list_scope.
Local Open Scope R_scope.

Lemma plain_floats a m e : forall l, @teval R (Fnum a) (Ffn m) (fun x => x) l (plain e) = feval a e.
Proof.
  unfold feval. induction e as [v|e IHe f IHf|e IHe f IHf|e IHe f IHf|e IHe f IHf|e IHe k|e IHe]; intro l; cbn [plain teval geval]; rewrite ?IHe; try reflexivity;
    destruct (geval _ e); cbn [bind]; try reflexivity; rewrite IHf; reflexivity.
Qed.
Lemma growth_bound u n : 0 <= u < 1 -> INR n * u <= / 100 -> 0 <= / (1 - u) ^ n - 1 <= 1.02 * (INR n * u).
Proof.
  intros hu hn. pose proof (base_inv u hu n) as b. split; [lra|].
  assert (w : within u n 1 (/ (1 - u) ^ n)).
  { exists (/ (1 - u) ^ n). pose proof (base_le1 u hu n). split; [lra|ring]. }
  pose proof (within_bound u hu n 1 _ hn w) as k. rewrite Rabs_R1 in k. pose proof (Rle_abs (/ (1 - u) ^ n - 1)). lra.
Qed.
Lemma exp_small t : 0 <= t <= / 50 -> exp t <= 1 + 1.03 * t.
Proof.
  intros (h0 & h1). pose proof (exp_ineq1_le (- t)) as h. assert (p : 0 < 1 - t) by lra.
  assert (e : exp t <= / (1 - t)).
  { rewrite <- (Rinv_inv (exp t)) by (pose proof (exp_pos t); lra). rewrite <- exp_Ropp. apply Rinv_le_contravar; lra. }
  apply Rle_trans with (1 := e). apply (Rmult_le_reg_r (1 - t)); [exact p|]. rewrite Rinv_l by lra. nra.
Qed.

(** The carried error of exp, in closed form. *)
Lemma exp_factor v e d : e * (exp d - 1) + v * (e + e * (exp d - 1)) = e * ((1 + v) * exp d - 1).
Proof. ring. Qed.
Lemma rate_numbers u v x e : 0 <= u <= / 100 -> 0 <= v <= / 100 -> 0 <= e -> 0 <= x * e <= / 100 -> 0 <= x ->
  (1 + u) * ((1 + v) * exp (1.02 * x * e)) - 1 <= 1.1 * (x * e + u + v).
Proof.
  intros hu hv he hxe hx. assert (k : exp (1.02 * x * e) <= 1 + 1.03 * (1.02 * x * e)) by (apply exp_small; lra).
  set (t := x * e) in *. replace (1.02 * x * e) with (1.02 * t) in * by (unfold t; ring). clearbody t.
  assert ((1 + u) * ((1 + v) * exp (1.02 * t)) <= (1 + u) * ((1 + v) * (1 + 1.03 * (1.02 * t)))).
  { apply Rmult_le_compat_l; [lra|]. apply Rmult_le_compat_l; lra. }
  assert (u * v <= u * / 100) by (apply Rmult_le_compat_l; lra). set (w := (1 + u) * (1 + v)) in *.
  assert (hw : w <= 1 + 1.01 * u + v) by (unfold w; lra). assert (w <= 1.0201) by lra.
  assert (w * t <= 1.0201 * t) by (apply Rmult_le_compat_r; lra).
  replace ((1 + u) * ((1 + v) * (1 + 1.03 * (1.02 * t)))) with (w + 1.0506 * (w * t)) in * by (unfold w; lra). lra.
Qed.
Lemma bump t : t * exp (- t) <= / 2.
Proof.
  pose proof (exp_ineq1_le (t - 1)) as h. pose proof (exp_ineq1_le 1) as h1. replace (1 + (t - 1)) with t in h by ring.
  pose proof (exp_pos (- t)) as p. pose proof (exp_pos 1) as p1.
  apply Rle_trans with (exp (t - 1) * exp (- t)); [apply Rmult_le_compat_r; lra|]. rewrite <- exp_plus. replace (t - 1 + - t) with (- (1)) by ring. rewrite exp_Ropp.
  apply Rinv_le_contravar; lra.
Qed.
(** The error of exp(-s) when s is known up to a share of it: no larger however large s is. *)
Lemma decay_numbers s e : 0 <= s -> 0 <= e <= / 50 -> exp (- s) * exp (e * s) - exp (- s) <= 0.52 * e /\ exp (- s) * exp (e * s) <= 1.
Proof.
  intros hs he. rewrite <- exp_plus. replace (- s + e * s) with (- (s * (1 - e))) by ring. set (t := s * (1 - e)).
  assert (ht : 0 <= t) by (apply Rmult_le_pos; lra). split.
  - replace (- s) with (- t + - (s * e)) by (unfold t; ring). rewrite exp_plus. pose proof (exp_ineq1_le (- (s * e))) as h.
    pose proof (exp_pos (- t)) as p. pose proof (bump t) as b.
    assert (k : exp (- t) - exp (- t) * exp (- (s * e)) <= exp (- t) * (s * e)) by nra.
    apply Rle_trans with (1 := k). replace (s * e) with (t * (e / (1 - e))) by (unfold t; field; lra).
    replace (exp (- t) * (t * (e / (1 - e)))) with (t * exp (- t) * (e / (1 - e))) by ring.
    assert (q : 0 <= e / (1 - e) <= 1.03 * e).
    { split; [apply Rmult_le_pos; [lra|left; apply Rinv_0_lt_compat; lra]|]. apply (Rmult_le_reg_r (1 - e)); [lra|]. unfold Rdiv. rewrite Rmult_assoc, Rinv_l by lra. nra. }
    assert (t * exp (- t) * (e / (1 - e)) <= / 2 * (e / (1 - e))) by (apply Rmult_le_compat_r; lra). lra.
  - rewrite <- exp_0. destruct ht as [ht|<-]; [left; apply exp_increasing; lra|rewrite Ropp_0; lra].
Qed.
Section Bounds.
Variables u v L : R.
Hypothesis hu : 0 <= u <= / 100.
Hypothesis hv : 0 <= v <= / 100.
Hypothesis hL : 0 <= L.
Variable a : arith.
Hypothesis ha : accurate u a.
Variable erf : R -> R.
Variable m : funs.
Hypothesis hm : accurate_fun u v L erf m.

Lemma u1 : 0 <= u < 1. Proof. lra. Qed.
Notation err l t := (@teval _ (Enum u) (Efn u v L erf) eleaf l t).

(** An expression without sums, as a number known up to its roundings. *)
Lemma number_known i x : no_sums i -> eval i = Ok (VNum x) ->
  exists y, feval a i = Ok (VNum y) /\ within u (roundings i) x y /\ known x y (x, (/ (1 - u) ^ roundings i - 1) * Rabs x).
Proof.
  intros hi e. pose proof (rounded_products u a u1 ha i hi) as k. rewrite e in k. destruct (feval a i) as [[y| | |w|w]|]; try contradiction. cbn in k.
  exists y. split; [reflexivity|]. split; [exact k|]. unfold known. cbn [fst snd]. pose proof (base_inv u u1 (roundings i)) as b. split; [reflexivity|].
  split; [apply Rmult_le_pos; [lra|apply Rabs_pos]|]. destruct k as (f & hf & ->). replace (x * f - x) with (x * (f - 1)) by ring. rewrite Rabs_mult, Rmult_comm.
  apply Rmult_le_compat_r; [apply Rabs_pos|]. apply Rabs_le. split; [|lra].
  set (g := (1 - u) ^ roundings i) in *. assert (0 < g) by apply (base_pos u u1).
  assert (2 <= g + / g); [|lra]. assert (e2 : g * / g = 1) by (apply Rinv_r; lra). pose proof (Rle_0_sqr (1 - g)) as s. unfold Rsqr in s.
  apply (Rmult_le_reg_l g); [assumption|]. rewrite Rmult_plus_distr_l, e2. lra.
Qed.
Lemma within_env x y d t : known x y (x, d) ->
  rr true (relv known) (@teval R Rnum (Rfn erf) (fun x => x) [VNum x] t) (@teval R (Fnum a) (Ffn m) (fun x => x) [VNum y] t) (err [VNum (x, d)] t).
Proof.
  intro h. apply (run_known u v L u1 (proj1 hv) hL a ha erf m hm). constructor; [exact h|constructor].
Qed.
Lemma rate_error o s A vA Ea R_ T x : arrhenius_units o = Ok s -> constant A s = Ok vA ->
  eval (rate_exponent Ea R_ T) = Ok (VNum x) ->
  INR (roundings (rate_exponent Ea R_ T)) * u <= / 100 -> Rabs x * (INR (roundings (rate_exponent Ea R_ T)) * u) <= / 100 ->
  same_outcome (near1 (1.1 * (Rabs x * (INR (roundings (rate_exponent Ea R_ T)) * u) + u + v)))
    (arrhenius o [AVal (VNum A); AVal Ea; AVal R_; AVal T] []) (floats a m (rate_term vA Ea R_ T)).
Proof.
  intros ho hA he hn hx. rewrite <- (run_rate erf o s A vA) by assumption. set (n := roundings _) in *.
  destruct (number_known _ x (conj I (conj I I) : no_sums (rate_exponent Ea R_ T)) he) as (y & ey & _ & k). fold n in k.
  assert (c : exists mA, vA = VMulti mA).
  { unfold constant in hA. destruct (mk_multi MMulti A s) as [mA|]; [|discriminate]. injection hA as <-. eauto. }
  destruct c as (mA & ->).
  pose proof (within_env x y _ (TMul (TLeaf (VMulti mA)) (TExp (TVar 0))) k) as r.
  unfold exact, floats, rate_term. cbn [teval] in *. rewrite plain_is, plain_floats, he, ey. cbn [nth_error bind eleaf on_number rmap fexp Rfn Ffn Efn py_mul multi_mul mv mc mtop mbot nmul Enum Rnum Fnum fst snd] in *.
  inversion r as [p q z hz e1 e2 e3| |]; subst. cbn [same_outcome same_but mc mv mtop mbot]. do 3 (split; [reflexivity|]).
  cbn [relv] in hz. unfold relm in hz. cbn [mc mv mtop mbot] in hz. destruct hz as (_ & _ & _ & _ & _ & _ & _ & _ & hz). unfold near1. apply Rle_trans with (1 := hz).
  unfold e_mul, more. cbn [fst snd]. pose proof (growth_bound u n u1 hn) as (g0 & g1). set (g := / (1 - u) ^ n - 1) in *.
  pose proof (exp_pos x) as px. rewrite Rabs_mult, (Rabs_pos_eq (exp x)) by lra. rewrite exp_factor.
  set (X := Rabs (mv mA)). assert (hX : 0 <= X) by apply Rabs_pos.
  replace ((X + 0) * (exp x + exp x * ((1 + v) * exp (g * Rabs x) - 1)) - X * exp x + u * (X * exp x + ((X + 0) * (exp x + exp x * ((1 + v) * exp (g * Rabs x) - 1)) - X * exp x)))
    with (((1 + u) * ((1 + v) * exp (g * Rabs x)) - 1) * (X * exp x)) by ring.
  apply Rmult_le_compat_r; [apply Rmult_le_pos; lra|].
  assert (em : exp (g * Rabs x) <= exp (1.02 * Rabs x * (INR n * u))).
  { pose proof (Rabs_pos x). assert (l : g * Rabs x <= 1.02 * Rabs x * (INR n * u)) by (replace (1.02 * Rabs x * (INR n * u)) with (1.02 * (INR n * u) * Rabs x) by ring; apply Rmult_le_compat_r; lra).
    destruct l as [l| ->]; [left; apply exp_increasing; exact l|lra]. }
  assert (hnu : 0 <= INR n * u) by (apply Rmult_le_pos; [apply pos_INR|lra]).
  pose proof (rate_numbers u v (Rabs x) (INR n * u) hu hv hnu (conj (Rmult_le_pos _ _ (Rabs_pos x) hnu) hx) (Rabs_pos x)) as rn.
  assert ((1 + u) * ((1 + v) * exp (g * Rabs x)) <= (1 + u) * ((1 + v) * exp (1.02 * Rabs x * (INR n * u)))).
  { apply Rmult_le_compat_l; [lra|]. apply Rmult_le_compat_l; lra. }
  lra.
Qed.
End Bounds.
