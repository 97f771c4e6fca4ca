(** * LogMeanExact: the log-mean difference for all temperatures *)
From Coq Require Import String Ascii List ZArith QArith Qcanon Bool Reals Qreals Lia Lra.
From Verif Require Import Py Num UnitsData UnitsStruct Units NumFacts Spec SpecFacts StructFacts
  OpFacts NamesFacts ClosureFacts FactorFacts LawFacts WitnessFacts OpPropFacts Solve Formulas FormulaSpec SemFacts SymFacts SweepFacts SimFacts ConductionFacts TransportFacts DimlessFacts ParamFacts ThermoFacts.
Import ListNotations.
Local Open Scope string_scope.
Local Open Scope list_scope.
Local Open Scope R_scope.

(** ** The logarithmic mean increases *)
Lemma exp_chord x y : x < y -> exists c, x < c < y /\ exp y - exp x = (y - x) * exp c.
Proof.
  intro h. destruct (MVT_cor2 exp exp x y h (fun c _ => derivable_pt_lim_exp c)) as [c [e hc]]. exists c. split; [exact hc|]. rewrite e. ring.
Qed.
Lemma chord_lt u v : u < v -> u <> 0 -> v <> 0 -> (exp u - 1) / u < (exp v - 1) / v.
Proof.
  intros h hu hv. pose proof exp_0 as e0.
  assert (up : forall z, z > 0 -> exists c, 0 < c < z /\ exp z - 1 = z * exp c).
  { intros z hz. destruct (exp_chord 0 z hz) as [c [hc e]]. exists c. split; [exact hc|]. rewrite e0 in e. lra. }
  assert (dn : forall z, z < 0 -> exists c, z < c < 0 /\ exp z - 1 = z * exp c).
  { intros z hz. destruct (exp_chord z 0 hz) as [c [hc e]]. exists c. split; [exact hc|]. rewrite e0 in e. lra. }
  destruct (exp_chord u v h) as [m [hm em]].
  destruct (Rlt_dec u 0) as [nu|nu]; destruct (Rlt_dec v 0) as [nv|nv]; try lra.
  - (* both negative: the chord from v to 0 is steeper than that from u to v *)
    destruct (dn v nv) as [c [hc ec]]. assert (exp m < exp c) by (apply exp_increasing; lra).
    apply (Rmult_lt_reg_r (u * v)); [nra|]. replace ((exp u - 1) / u * (u * v)) with ((exp u - 1) * v) by (field; lra).
    replace ((exp v - 1) / v * (u * v)) with ((exp v - 1) * u) by (field; lra).
    replace (exp u - 1) with (v * exp c - (v - u) * exp m) by lra. rewrite ec.
    assert (0 < (u - v) * (exp m - exp c) * - v) by (apply Rmult_lt_0_compat; [nra|lra]). nra.
  - destruct (dn u nu) as [c [hc ec]]. destruct (up v ltac:(lra)) as [d [hd ed]]. rewrite ec, ed.
    replace (u * exp c / u) with (exp c) by (field; lra). replace (v * exp d / v) with (exp d) by (field; lra). apply exp_increasing. lra.
  - destruct (up u ltac:(lra)) as [c [hc ec]]. assert (exp c < exp m) by (apply exp_increasing; lra).
    apply (Rmult_lt_reg_r (u * v)); [nra|]. replace ((exp u - 1) / u * (u * v)) with ((exp u - 1) * v) by (field; lra).
    replace ((exp v - 1) / v * (u * v)) with ((exp v - 1) * u) by (field; lra).
    replace (exp v - 1) with (u * exp c + (v - u) * exp m) by lra. rewrite ec.
    assert (0 < u * ((v - u) * (exp m - exp c))) by (apply Rmult_lt_0_compat; [lra|apply Rmult_lt_0_compat; lra]). nra.
Qed.
Lemma logmean_lt x x' y : 0 < x -> 0 < y -> x < x' -> x <> y -> x' <> y -> (x - y) / ln (x / y) < (x' - y) / ln (x' / y).
Proof.
  intros hx hy h n n'. assert (hx' : 0 < x') by lra.
  pose proof (ln_nz x y hx hy n) as z. pose proof (ln_nz x' y hx' hy n') as z'.
  assert (hl : ln (x / y) < ln (x' / y)) by (rewrite !ln_div by assumption; pose proof (ln_increasing x x' hx h); lra).
  assert (e : forall t, 0 < t -> (t - y) / ln (t / y) = y * ((exp (ln (t / y)) - 1) / ln (t / y))).
  { intros t ht. rewrite exp_ln by (apply div_pos; assumption). unfold Rdiv. rewrite <- !Rmult_assoc. f_equal. field. lra. }
  rewrite !e by assumption. apply Rmult_lt_compat_l; [exact hy|]. apply chord_lt; assumption.
Qed.

(** ** The call *)
Section Name.
  Variable th : string.
  Let tv (x : R) : val := VUnit (UO Temperature x th (eint 1)).
  Let core (x y : R) : res val := odiv (osub (Ok (tv x)) (Ok (tv y))) (math_log (odiv (Ok (tv x)) (Ok (tv y)))).
  Lemma core_call (co : bool) a b c d :
    deltat_logmean (tv a) (tv b) (tv c) (tv d) co = core (if co then c else a - d) (b - (if co then d else c)).
  Proof.
    unfold deltat_logmean. destruct co; unfold tv; [rewrite (temp_sub th b d)|rewrite (temp_sub th a d), (temp_sub th b c)]; cbn [bind]; reflexivity.
  Qed.
  Lemma core_zero x : core x 0 = Raise EZeroDivisionError.
  Proof. unfold core, tv. rewrite temp_sub. unfold odiv. cbn [bind py_div unit_div uv un ue]. rewrite pydiv_0 by reflexivity. reflexivity. Qed.
  Lemma core_sign x y : y <> 0 -> x / y <= 0 -> core x y = Raise EValueError.
  Proof.
    intros h1 h2. unfold core, tv. rewrite temp_sub, temp_ratio by exact h1. unfold math_log. cbn [bind].
    destruct (Rltb 0 (x / y)) eqn:e; [apply Rltb_true in e; lra|reflexivity].
  Qed.
  Lemma core_equal y : y <> 0 -> core y y = Raise EZeroDivisionError.
  Proof.
    intro h. unfold core, tv. rewrite temp_sub, temp_ratio by exact h. unfold math_log. cbn [bind]. replace (y / y) with 1 by (field; exact h).
    rewrite (proj2 (Rltb_true 0 1)) by lra. rewrite ln_1. unfold odiv. cbn [bind py_div unit_div uv]. rewrite pydiv_0 by reflexivity. reflexivity.
  Qed.
  Lemma log_nz x y : 0 < x / y -> x <> y -> ln (x / y) <> 0.
  Proof.
    intros h n e. assert (y <> 0) by (intro z; subst y; unfold Rdiv in h; rewrite Rinv_0, Rmult_0_r in h; lra).
    assert (k : x / y = 1). { rewrite <- (exp_ln (x / y)) by exact h. rewrite e. apply exp_0. }
    apply n. replace x with (x / y * y) by (field; assumption). rewrite k. ring.
  Qed.
  Lemma core_value x y : 0 < x / y -> x <> y -> core x y = Ok (tv ((x - y) / ln (x / y))).
  Proof.
    intros h n. assert (y <> 0) by (intro z; subst y; unfold Rdiv in h; rewrite Rinv_0, Rmult_0_r in h; lra).
    unfold core, tv. rewrite temp_sub, temp_ratio by assumption. unfold math_log. cbn [bind]. rewrite (proj2 (Rltb_true 0 (x / y)) h).
    unfold odiv. cbn [bind py_div unit_div uv un ue uc]. rewrite pydiv_ok by (apply log_nz; assumption). reflexivity.
  Qed.
End Name.
Lemma logmean_any x y : 0 < x / y -> x <> y -> Rmin x y < (x - y) / ln (x / y) < Rmax x y.
Proof.
  intros h n. destruct (Rlt_dec 0 y) as [hy|hy].
  - assert (0 < x). { replace x with (x / y * y) by (field; lra). apply Rmult_lt_0_compat; assumption. } apply logmean_between; assumption.
  - assert (y <> 0) by (intro z; subst y; unfold Rdiv in h; rewrite Rinv_0, Rmult_0_r in h; lra).
    assert (x < 0). { replace x with (- (x / y * - y)) by (field; lra). assert (0 < x / y * - y) by (apply Rmult_lt_0_compat; lra). lra. }
    destruct (logmean_between (- x) (- y)) as [l r]; try lra. replace (- x / - y) with (x / y) in * by (field; lra).
    replace ((- x - - y) / ln (x / y)) with (- ((x - y) / ln (x / y))) in * by (field; apply log_nz; assumption).
    rewrite <- Ropp_Rmax in l. unfold Rmin, Rmax in *. destruct (Rle_dec (- x) (- y)); destruct (Rle_dec x y); lra.
Qed.
Theorem logmean_actual (co : bool) th (a b c d : R) v1 v2 v3 v4 :
  simple Temperature a th = Ok v1 -> simple Temperature b th = Ok v2 -> simple Temperature c th = Ok v3 -> simple Temperature d th = Ok v4 ->
  let x := if co then c else a - d in let y := b - (if co then d else c) in let call := deltat_logmean v1 v2 v3 v4 co in
  (y = 0 -> call = Raise EZeroDivisionError) /\
  (y <> 0 -> x / y <= 0 -> call = Raise EValueError) /\
  (y <> 0 -> x = y -> call = Raise EZeroDivisionError) /\
  (0 < x / y -> x <> y -> exists u, call = Ok (VUnit u) /\ un u = th /\ ev (ue u) = qc 1%Z /\ uv u = (x - y) / ln (x / y) /\ Rmin x y < uv u < Rmax x y).
Proof.
  intros e1 e2 e3 e4 x y call. rewrite simple_temp in e1, e2, e3, e4. injection e1 as <-. injection e2 as <-. injection e3 as <-. injection e4 as <-.
  unfold call. rewrite (core_call th co a b c d). fold x y. split; [intro h; rewrite h; apply core_zero|]. split; [apply core_sign|].
  split; [intros h h'; rewrite h'; apply core_equal; exact h|]. intros h n. rewrite core_value by assumption.
  eexists. split; [reflexivity|]. cbn [un ue uv]. split; [reflexivity|]. split; [reflexivity|]. split; [reflexivity|]. apply logmean_any; assumption.
Qed.
(** Cocurrent: too large, right or too small as T0B is larger than, equal to or smaller than T0A - T0B. *)
Theorem cocurrent_exact th (a b c d : R) v1 v2 v3 v4 :
  simple Temperature a th = Ok v1 -> simple Temperature b th = Ok v2 -> simple Temperature c th = Ok v3 -> simple Temperature d th = Ok v4 ->
  0 < a - c -> 0 < b - d -> a - c <> b - d -> 0 < c -> c <> b - d ->
  let m := ((a - c) - (b - d)) / ln ((a - c) / (b - d)) in
  exists u, deltat_logmean v1 v2 v3 v4 true = Ok (VUnit u) /\ (uv u = m <-> a - c = c) /\ (m < uv u <-> a - c < c) /\ (uv u < m <-> c < a - c).
Proof.
  intros e1 e2 e3 e4 h1 h2 n h3 n' m.
  destruct (logmean_actual true th a b c d v1 v2 v3 v4 e1 e2 e3 e4) as [_ [_ [_ k]]]. cbv zeta iota in k.
  destruct (k (div_pos _ _ h3 h2) n') as [u [e [_ [_ [v _]]]]]. exists u. split; [exact e|]. rewrite v.
  assert (l : a - c < c -> m < (c - (b - d)) / ln (c / (b - d))) by (intro; apply logmean_lt; assumption).
  assert (r : c < a - c -> (c - (b - d)) / ln (c / (b - d)) < m) by (intro; apply logmean_lt; assumption).
  assert (q : a - c = c -> (c - (b - d)) / ln (c / (b - d)) = m) by (intro q; unfold m; rewrite q; reflexivity).
  destruct (Rtotal_order (a - c) c) as [t|[t|t]]; [specialize (l t)|specialize (q t)|specialize (r t)]; repeat split; intros; lra.
Qed.
(** The conductivity of the sphere is not read. *)
Lemma sphere_ignores k k' a b ro ri : sphere_heat k a b ro ri = sphere_heat k' a b ro ri.
Proof. reflexivity. Qed.
