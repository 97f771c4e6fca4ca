(** * ThermoFacts: log-mean temperature difference and the lumped model *)
From Coq Require Import String Ascii List ZArith QArith Qcanon Bool Reals Qreals Lia Lra.
From Verif Require Import Py Num UnitsData UnitsStruct Units NumFacts Spec SpecFacts StructFacts
  OpFacts NamesFacts ClosureFacts FactorFacts LawFacts WitnessFacts OpPropFacts Solve Formulas FormulaSpec SemFacts SymFacts SweepFacts SimFacts ConductionFacts TransportFacts DimlessFacts ParamFacts.
Import ListNotations.
Local Open Scope string_scope.
Local Open Scope list_scope.
Local Open Scope R_scope.

(** ** The logarithmic mean *)
Lemma ln_div x y : 0 < x -> 0 < y -> ln (x / y) = ln x - ln y.
Proof. intros. unfold Rdiv. rewrite ln_mult, ln_Rinv; try assumption; [ring|apply Rinv_0_lt_compat; assumption]. Qed.
Lemma logmean_sym a b : 0 < a -> 0 < b -> a <> b -> (a - b) / ln (a / b) = (b - a) / ln (b / a).
Proof.
  intros ha hb hn. pose proof (ln_nz a b ha hb hn) as h1. pose proof (ln_nz b a hb ha (not_eq_sym hn)) as h2.
  rewrite !ln_div in * by assumption. field. split; lra.
Qed.
Lemma logmean_gt a b : 0 < b -> b < a -> b < (a - b) / ln (a / b) < a.
Proof.
  intros hb h. assert (ha : 0 < a) by lra. set (t := ln (a / b)).
  assert (ht : 0 < t). { unfold t. rewrite ln_div by assumption. pose proof (ln_increasing b a hb h). lra. }
  assert (e1 : a = b * exp t). { unfold t. rewrite exp_ln by (apply div_pos; assumption). field. lra. }
  assert (e2 : b = a * exp (- t)). { rewrite exp_Ropp. rewrite e1 at 1. field. pose proof (exp_pos t). lra. }
  pose proof (exp_ineq1 t ltac:(lra)) as i1. pose proof (exp_ineq1 (- t) ltac:(lra)) as i2.
  split.
  - apply (Rmult_lt_reg_r t); [exact ht|]. unfold Rdiv. rewrite Rmult_assoc, Rinv_l, Rmult_1_r by lra.
    assert (b * (1 + t) < b * exp t) by (apply Rmult_lt_compat_l; assumption). lra.
  - apply (Rmult_lt_reg_r t); [exact ht|]. unfold Rdiv. rewrite Rmult_assoc, Rinv_l, Rmult_1_r by lra.
    assert (a * (1 + - t) < a * exp (- t)) by (apply Rmult_lt_compat_l; assumption). lra.
Qed.
Lemma logmean_between a b : 0 < a -> 0 < b -> a <> b -> Rmin a b < (a - b) / ln (a / b) < Rmax a b.
Proof.
  intros ha hb hn. destruct (Rtotal_order a b) as [h|[h|h]]; [|contradiction|].
  - rewrite logmean_sym by assumption. rewrite Rmin_left, Rmax_right by lra. apply logmean_gt; assumption.
  - rewrite Rmin_right, Rmax_left by lra. apply logmean_gt; assumption.
Qed.
Definition f_lm := FLet (FSub (FVar 0) (FVar 3)) (FLet (FSub (FVar 2) (FVar 3)) (FDiv (FSub (FVar 1) (FVar 0)) (FLog (FDiv (FVar 1) (FVar 0))))).
Lemma lm_run a b c d : deltat_logmean a b c d false = run [a; b; c; d] f_lm.
Proof.
  unfold deltat_logmean, f_lm. cbn [run var nth_error]. destruct (osub (Ok a) (Ok d)) as [x|]; [|reflexivity]. cbn [bind].
  destruct (osub (Ok b) (Ok c)); reflexivity.
Qed.
Lemma lm_def a b c d : 0 < a - d -> 0 < b - c -> a - d <> b - c -> def [a; b; c; d] f_lm.
Proof. intros h1 h2 hn. cbn. repeat split; try lra; [apply div_pos; assumption|apply ln_nz; assumption]. Qed.
Lemma lm_props t0a t1a t0b t1b r : plain_val t0a -> plain_val t1a -> plain_val t0b -> plain_val t1b ->
  0 < value t0a - value t1b -> 0 < value t1a - value t0b -> value t0a - value t1b <> value t1a - value t0b ->
  deltat_logmean t0a t1a t0b t1b false = Ok r ->
  Rmin (value t0a - value t1b) (value t1a - value t0b) < value r < Rmax (value t0a - value t1b) (value t1a - value t0b).
Proof.
  intros p1 p2 p3 p4 h1 h2 hn h. rewrite lm_run in h.
  destruct (run_value _ _ _ h ltac:(pl) (lm_def _ _ _ _ h1 h2 hn)) as [e _]. rewrite e. cbn. apply logmean_between; assumption.
Qed.
Lemma lm_sym t0a t1a t0b t1b r : plain_val t0a -> plain_val t1a -> plain_val t0b -> plain_val t1b ->
  same_unit t0a t1a -> same_unit t0b t1b ->
  0 < value t0a - value t1b -> 0 < value t1a - value t0b -> value t0a - value t1b <> value t1a - value t0b ->
  deltat_logmean t0a t1a t0b t1b false = Ok r ->
  exists r', deltat_logmean t1a t0a t1b t0b false = Ok r' /\ value r' = value r /\ same_unit r r'.
Proof.
  intros p1 p2 p3 p4 sa sb h1 h2 hn h. rewrite lm_run in *.
  destruct (run_scaled f_lm [t0a; t1a; t0b; t1b] [t1a; t0a; t1b; t0b] r 1 h) as [r' [e [v s]]];
    [pl|pl|sames|apply lm_def; assumption|apply lm_def; [assumption|assumption|lra]| |exists r'; split; [exact e|]; split; [lra|exact s]].
  cbn. rewrite Rmult_1_l. symmetry. apply logmean_sym; assumption.
Qed.
Definition lm_sys th : bool := sys_ok [ssimple Temperature th; ssimple Temperature th; ssimple Temperature th; ssimple Temperature th] f_lm (is_unit th).
Lemma lm_sweep : forallb lm_sys temperatures = true.
Proof. vm_compute. reflexivity. Qed.
Lemma lm_units th (a b c d : R) v1 v2 v3 v4 : In th temperatures ->
  simple Temperature a th = Ok v1 -> simple Temperature b th = Ok v2 -> simple Temperature c th = Ok v3 -> simple Temperature d th = Ok v4 ->
  0 < a - d -> 0 < b - c -> a - d <> b - c ->
  exists u, deltat_logmean v1 v2 v3 v4 false = Ok (VUnit u) /\ un u = th /\ ev (ue u) = qc 1 /\ uv u = ((a - d) - (b - c)) / ln ((a - d) / (b - c)).
Proof.
  intros hi e1 e2 e3 e4 h1 h2 hn. pose proof (sweep1 _ _ _ lm_sweep hi) as hs. unfold lm_sys in hs.
  assert (hm : makes_all [ssimple Temperature th; ssimple Temperature th; ssimple Temperature th; ssimple Temperature th] [v1; v2; v3; v4] [a; b; c; d]) by make.
  destruct (sys_sound _ _ _ _ _ hm hs (lm_def _ _ _ _ h1 h2 hn)) as [r [e [k [v _]]]]. rewrite lm_run, e.
  destruct (is_unit_ok _ _ k) as [u [-> [n x]]]. exists u. split; [reflexivity|]. split; [exact n|]. split; [exact x|]. cbn in v. exact v.
Qed.
(** Equal end differences divide by zero. *)
Lemma simple_temp th x : simple Temperature x th = Ok (VUnit (UO Temperature x th (eint 1))).
Proof. reflexivity. Qed.
Section AnyName.
  Variable th : string.
  Let tv (x : R) : val := VUnit (UO Temperature x th (eint 1)).
  Lemma temp_sub x y : osub (Ok (tv x)) (Ok (tv y)) = Ok (tv (x - y)).
  Proof. unfold osub, tv. cbn [bind py_sub unit_addsub uc uv un ue]. rewrite (String.eqb_refl th). reflexivity. Qed.
  Lemma temp_ratio x y : y <> 0 -> odiv (Ok (tv x)) (Ok (tv y)) = Ok (VNum (x / y)).
  Proof. intro h. unfold odiv, tv. cbn [bind py_div unit_div uv un ue]. rewrite pydiv_ok by exact h. cbn [bind]. rewrite (String.eqb_refl th). reflexivity. Qed.
  Lemma temp_log x y : 0 < x -> 0 < y -> math_log (odiv (Ok (tv x)) (Ok (tv y))) = Ok (VNum (ln (x / y))).
  Proof. intros hx hy. rewrite temp_ratio by lra. unfold math_log. cbn [bind]. rewrite (proj2 (Rltb_true 0 (x / y))); [reflexivity|]. apply div_pos; assumption. Qed.
  Lemma temp_lm a b c d : 0 < a - d -> 0 < b - c ->
    deltat_logmean (tv a) (tv b) (tv c) (tv d) false = odiv (Ok (tv ((a - d) - (b - c)))) (Ok (VNum (ln ((a - d) / (b - c))))).
  Proof. intros h1 h2. unfold deltat_logmean. rewrite !temp_sub. cbn [bind]. rewrite temp_sub, temp_log by assumption. reflexivity. Qed.
End AnyName.
(** For every name the class Temperature accepts. *)
Lemma lm_any th (a b c d : R) v1 v2 v3 v4 :
  simple Temperature a th = Ok v1 -> simple Temperature b th = Ok v2 -> simple Temperature c th = Ok v3 -> simple Temperature d th = Ok v4 ->
  0 < a - d -> 0 < b - c -> a - d <> b - c ->
  exists u, deltat_logmean v1 v2 v3 v4 false = Ok (VUnit u) /\ un u = th /\ ev (ue u) = qc 1 /\ uv u = ((a - d) - (b - c)) / ln ((a - d) / (b - c)) /\
    Rmin (a - d) (b - c) < uv u < Rmax (a - d) (b - c) /\ deltat_logmean v2 v1 v4 v3 false = Ok (VUnit u).
Proof.
  intros e1 e2 e3 e4 h1 h2 hn. rewrite simple_temp in e1, e2, e3, e4. injection e1 as <-. injection e2 as <-. injection e3 as <-. injection e4 as <-.
  exists (UO Temperature (((a - d) - (b - c)) / ln ((a - d) / (b - c))) th (eint 1)).
  assert (hd : forall x y, y <> 0 -> odiv (Ok (VUnit (UO Temperature x th (eint 1)))) (Ok (VNum y)) = Ok (VUnit (UO Temperature (x / y) th (eint 1)))).
  { intros x y hy. unfold odiv. cbn [bind py_div unit_div uv un ue uc]. rewrite pydiv_ok by exact hy. reflexivity. }
  split; [rewrite temp_lm, hd by (assumption || (apply ln_nz; assumption)); reflexivity|]. split; [reflexivity|]. split; [reflexivity|]. split; [reflexivity|].
  split; [apply logmean_between; assumption|]. rewrite temp_lm, hd by (assumption || (apply ln_nz; auto)). do 3 f_equal. symmetry. apply logmean_sym; assumption.
Qed.
Lemma lm_equal th (a b c d : R) v1 v2 v3 v4 :
  simple Temperature a th = Ok v1 -> simple Temperature b th = Ok v2 -> simple Temperature c th = Ok v3 -> simple Temperature d th = Ok v4 ->
  0 < a - d -> a - d = b - c -> deltat_logmean v1 v2 v3 v4 false = Raise EZeroDivisionError.
Proof.
  intros e1 e2 e3 e4 h1 h2. rewrite simple_temp in e1, e2, e3, e4. injection e1 as <-. injection e2 as <-. injection e3 as <-. injection e4 as <-.
  rewrite temp_lm by lra. rewrite <- h2. replace ((a - d) / (a - d)) with 1 by (field; lra). rewrite ln_1. unfold odiv. cbn [bind py_div unit_div uv].
  rewrite pydiv_0 by reflexivity. reflexivity.
Qed.
(** Cocurrent: the end difference T0A - T0B is not taken. *)
Lemma lm_cocurrent_ignores t0a t0a' t1a t0b t1b : deltat_logmean t0a t1a t0b t1b true = deltat_logmean t0a' t1a t0b t1b true.
Proof. reflexivity. Qed.
Definition f_lmc := FLet (FSub (FVar 0) (FVar 2)) (FDiv (FSub (FVar 2) (FVar 0)) (FLog (FDiv (FVar 2) (FVar 0)))).
Lemma lmc_run a b c d : deltat_logmean a b c d true = run [b; c; d] f_lmc.
Proof. unfold deltat_logmean, f_lmc. cbn [run var nth_error]. destruct (osub (Ok b) (Ok d)); reflexivity. Qed.
Lemma lm_cocurrent : exists t0a t1a t0b t1b r,
  simple Temperature 901 "K" = Ok t0a /\ simple Temperature 902 "K" = Ok t1a /\ simple Temperature 900 "K" = Ok t0b /\ simple Temperature 900 "K" = Ok t1b /\
  deltat_logmean t0a t1a t0b t1b true = Ok r /\ value r > Rmax (901 - 900) (902 - 900).
Proof.
  destruct (simple Temperature 901 "K") as [v1|] eqn:e1; [|discriminate]. destruct (simple Temperature 902 "K") as [v2|] eqn:e2; [|discriminate].
  destruct (simple Temperature 900 "K") as [v3|] eqn:e3; [|discriminate].
  assert (hm : makes_all [ssimple Temperature "K"; ssimple Temperature "K"; ssimple Temperature "K"] [v2; v3; v3] [902; 900; 900]).
  { constructor; [apply simple_makes; exact e2|]. constructor; [apply simple_makes; exact e3|]. constructor; [apply simple_makes; exact e3|constructor]. }
  assert (h2 : 902 - 900 = 2) by lra.
  destruct (sys_sound _ _ _ f_lmc is_ok hm) as [r [e [_ [v _]]]].
  - vm_compute. reflexivity.
  - cbn. rewrite h2. repeat split; try lra; apply ln_nz; lra.
  - exists v1, v2, v3, v3, r. split; [reflexivity|]. split; [first [exact e2|reflexivity]|]. split; [first [exact e3|reflexivity]|]. split; [first [exact e3|reflexivity]|].
    split; [rewrite lmc_run; exact e|]. cbn [num f_lmc nth] in v. rewrite v, h2.
    replace (901 - 900) with 1 by lra. rewrite Rmax_right by lra. apply Rlt_gt. destruct (logmean_gt 900 2); lra.
Qed.

(** ** The lumped model *)
Definition f_lump := FSub (FVar 0) (FMul (FSub (FVar 0) (FVar 1)) (FFun exp (FDiv (FNeg (FMul (FMul (FVar 2) (FVar 3)) (FVar 7))) (FMul (FMul (FVar 4) (FVar 5)) (FVar 6))))).
Lemma lump_run a b c d e f g h : lumped_parameter a b c d e f g h = run [a; b; c; d; e; f; g; h] f_lump.
Proof. reflexivity. Qed.
(** Fraction of the initial difference left. *)
Definition decay (h A rho cP V t : R) : R := exp (- (h * A * t) / (rho * cP * V)).
Lemma lump_def a b h A rho cP V t : rho <> 0 -> cP <> 0 -> V <> 0 -> def [a; b; h; A; rho; cP; V; t] f_lump.
Proof. intros. cbn. repeat split; nzs. Qed.
Lemma lump_value Tf To h A rho cP V t r : plain_val Tf -> plain_val To -> plain_val h -> plain_val A -> plain_val rho -> plain_val cP -> plain_val V -> plain_val t ->
  value rho <> 0 -> value cP <> 0 -> value V <> 0 -> lumped_parameter Tf To h A rho cP V t = Ok r ->
  value r = value Tf - (value Tf - value To) * decay (value h) (value A) (value rho) (value cP) (value V) (value t).
Proof.
  intros p1 p2 p3 p4 p5 p6 p7 p8 n1 n2 n3 hr. rewrite lump_run in hr.
  destruct (run_value _ _ _ hr ltac:(pl) (lump_def _ _ _ _ _ _ _ _ n1 n2 n3)) as [e _]. rewrite e. reflexivity.
Qed.
Lemma decay_pos h A rho cP V t : 0 < decay h A rho cP V t.
Proof. apply exp_pos. Qed.
Lemma decay_rate h A rho cP V t : rho <> 0 -> cP <> 0 -> V <> 0 -> decay h A rho cP V t = exp (- (h * A / (rho * cP * V)) * t).
Proof. intros. unfold decay. f_equal. field. repeat split; assumption. Qed.
Section Decay.
  Variables h A rho cP V : R.
  Hypotheses (hh : 0 < h) (hA : 0 < A) (hr : 0 < rho) (hc : 0 < cP) (hV : 0 < V).
  Let k := h * A / (rho * cP * V).
  Lemma rate_pos : 0 < k.
  Proof. apply div_pos; repeat apply Rmult_lt_0_compat; assumption. Qed.
  Lemma decay_le1 t : 0 <= t -> decay h A rho cP V t <= 1.
  Proof.
    intro ht. rewrite decay_rate by lra. fold k. pose proof rate_pos. rewrite <- exp_0.
    assert (- k * t <= 0) by (assert (0 <= k * t) by (apply Rmult_le_pos; lra); lra).
    destruct (Rle_lt_or_eq_dec _ _ H0) as [l|e]; [left; apply exp_increasing, l|rewrite e; right; reflexivity].
  Qed.
  Lemma decay_decr t t' : t < t' -> decay h A rho cP V t' < decay h A rho cP V t.
  Proof.
    intro ht. rewrite !decay_rate by lra. fold k. pose proof rate_pos. apply exp_increasing.
    assert (k * t < k * t') by (apply Rmult_lt_compat_l; assumption). lra.
  Qed.
  Lemma decay_lim eps : 0 < eps -> exists t0, forall t, t0 < t -> decay h A rho cP V t < eps.
  Proof.
    intro he. pose proof rate_pos. exists (- ln eps / k). intros t ht. rewrite decay_rate by lra. fold k.
    rewrite <- (exp_ln eps he). apply exp_increasing. apply (Rmult_lt_compat_r k) in ht; [|assumption].
    replace (- ln eps / k * k) with (- ln eps) in ht by (field; lra). lra.
  Qed.
End Decay.
Lemma mix_bounds x y e : 0 < e -> e <= 1 -> Rmin x y <= x - (x - y) * e <= Rmax x y.
Proof.
  intros h0 h1. destruct (Rle_dec x y) as [l|l].
  - rewrite Rmin_left, Rmax_right by lra. assert (0 <= (y - x) * e) by (apply Rmult_le_pos; lra).
    assert ((y - x) * e <= (y - x) * 1) by (apply Rmult_le_compat_l; lra). lra.
  - rewrite Rmin_right, Rmax_left by lra. assert (0 <= (x - y) * e) by (apply Rmult_le_pos; lra).
    assert ((x - y) * e <= (x - y) * 1) by (apply Rmult_le_compat_l; lra). lra.
Qed.
Lemma lump_bounds Tf To h A rho cP V t r : plain_val Tf -> plain_val To -> plain_val h -> plain_val A -> plain_val rho -> plain_val cP -> plain_val V -> plain_val t ->
  0 < value h -> 0 < value A -> 0 < value rho -> 0 < value cP -> 0 < value V -> 0 <= value t -> lumped_parameter Tf To h A rho cP V t = Ok r ->
  Rmin (value Tf) (value To) <= value r <= Rmax (value Tf) (value To).
Proof.
  intros. rewrite (lump_value Tf To h A rho cP V t r) by (assumption || lra). apply mix_bounds; [apply decay_pos|apply decay_le1; assumption].
Qed.
Lemma lump_monotone Tf To h A rho cP V t t' r r' : plain_val Tf -> plain_val To -> plain_val h -> plain_val A -> plain_val rho -> plain_val cP -> plain_val V -> plain_val t -> plain_val t' ->
  0 < value h -> 0 < value A -> 0 < value rho -> 0 < value cP -> 0 < value V -> value t < value t' ->
  lumped_parameter Tf To h A rho cP V t = Ok r -> lumped_parameter Tf To h A rho cP V t' = Ok r' ->
  (value To < value Tf -> value r < value r' < value Tf) /\ (value Tf < value To -> value Tf < value r' < value r) /\ (value To = value Tf -> value r = value Tf /\ value r' = value Tf).
Proof.
  intros. rewrite (lump_value Tf To h A rho cP V t r) by (assumption || lra). rewrite (lump_value Tf To h A rho cP V t' r') by (assumption || lra).
  pose proof (decay_decr (value h) (value A) (value rho) (value cP) (value V) ltac:(assumption) ltac:(assumption) ltac:(assumption) ltac:(assumption) ltac:(assumption) (value t) (value t') ltac:(assumption)) as hd.
  pose proof (decay_pos (value h) (value A) (value rho) (value cP) (value V) (value t')) as hp.
  set (e := decay _ _ _ _ _ (value t)) in *. set (e' := decay _ _ _ _ _ (value t')) in *. split; [|split]; intro l.
  - assert (0 < (value Tf - value To) * e') by (apply Rmult_lt_0_compat; lra).
    assert ((value Tf - value To) * e' < (value Tf - value To) * e) by (apply Rmult_lt_compat_l; lra). lra.
  - assert (0 < (value To - value Tf) * e') by (apply Rmult_lt_0_compat; lra).
    assert ((value To - value Tf) * e' < (value To - value Tf) * e) by (apply Rmult_lt_compat_l; lra). lra.
  - rewrite l. lra.
Qed.
Lemma lump_limit Tf To h A rho cP V : plain_val Tf -> plain_val To -> plain_val h -> plain_val A -> plain_val rho -> plain_val cP -> plain_val V ->
  0 < value h -> 0 < value A -> 0 < value rho -> 0 < value cP -> 0 < value V -> forall eps, 0 < eps ->
  exists t0, forall t r, plain_val t -> t0 < value t -> lumped_parameter Tf To h A rho cP V t = Ok r -> Rabs (value r - value Tf) < eps.
Proof.
  intros p1 p2 p3 p4 p5 p6 p7 h1 h2 h3 h4 h5 eps he.
  set (d := Rabs (value Tf - value To) + 1). assert (hd : 0 < d) by (unfold d; pose proof (Rabs_pos (value Tf - value To)); lra).
  destruct (decay_lim (value h) (value A) (value rho) (value cP) (value V) h1 h2 h3 h4 h5 (eps / d) (div_pos _ _ he hd)) as [t0 h0].
  exists t0. intros t r pt ht hr. rewrite (lump_value Tf To h A rho cP V t r) by (assumption || lra). specialize (h0 _ ht).
  pose proof (decay_pos (value h) (value A) (value rho) (value cP) (value V) (value t)) as hp. set (e := decay _ _ _ _ _ _) in *.
  replace (value Tf - (value Tf - value To) * e - value Tf) with (- ((value Tf - value To) * e)) by ring.
  rewrite Rabs_Ropp, Rabs_mult, (Rabs_right e) by lra.
  apply (Rle_lt_trans _ (d * e)); [apply Rmult_le_compat_r; [lra|unfold d; lra]|].
  apply (Rmult_lt_compat_l d) in h0; [|exact hd]. replace (d * (eps / d)) with eps in h0 by (field; lra). exact h0.
Qed.
(** Any units, prefixed ones included: the numbers of the answer are those of the
    model with the exponent multiplied by a factor that depends on the units only. *)
Definition lumped (S x0 x1 x2 x3 x4 x5 x6 x7 : R) : R := x0 - (x0 - x1) * exp (- (x2 * x3 * x7) / (x4 * x5 * x6) * S).
Lemma neg_carries a r : py_neg a = Ok r -> carries a.
Proof. destruct a; cbn; try discriminate; intros; exact I. Qed.
Lemma exp_num x r : math_exp x = Ok r -> exists y, x = Ok (VNum y) /\ r = VNum (exp y).
Proof.
  unfold math_exp, math1. intro h. apply bind_ok in h. destruct h as [a [e h]]. destruct a as [a| | | |]; try discriminate h. injection h as <-.
  exists a. auto.
Qed.
Lemma lump_acts Tf To h A rho cP V t r : value rho <> 0 -> value cP <> 0 -> value V <> 0 -> lumped_parameter Tf To h A rho cP V t = Ok r ->
  exists c S, 0 < S /\ carries c /\
    r = setv c (lumped S (value Tf) (value To) (value h) (value A) (value rho) (value cP) (value V) (value t)) /\
    forall x0 x1 x2 x3 x4 x5 x6 x7, x4 <> 0 -> x5 <> 0 -> x6 <> 0 ->
      lumped_parameter (setv Tf x0) (setv To x1) (setv h x2) (setv A x3) (setv rho x4) (setv cP x5) (setv V x6) (setv t x7) = Ok (setv c (lumped S x0 x1 x2 x3 x4 x5 x6 x7)).
Proof.
  intros n1 n2 n3 hr.
  assert (hgen : exists c S, 0 < S /\ carries c /\ forall x0 x1 x2 x3 x4 x5 x6 x7, x4 <> 0 -> x5 <> 0 -> x6 <> 0 ->
      lumped_parameter (setv Tf x0) (setv To x1) (setv h x2) (setv A x3) (setv rho x4) (setv cP x5) (setv V x6) (setv t x7) = Ok (setv c (lumped S x0 x1 x2 x3 x4 x5 x6 x7))).
  { unfold lumped_parameter in hr. unfold omul, odiv, osub, oneg in hr. cbn [bind] in hr.
    apply bind_ok in hr. destruct hr as [m [hm hr]]. apply bind_ok in hm. destruct hm as [d [hd hm]]. apply bind_ok in hm. destruct hm as [e [he hm]].
    destruct (exp_num _ _ he) as [y [hy ->]]. clear he. apply bind_ok in hy. destruct hy as [n [hn hy]]. apply bind_ok in hn. destruct hn as [p [hp hn]].
    apply bind_ok in hp. destruct hp as [ha [hha hp]]. apply bind_ok in hy. destruct hy as [b [hb hy]]. apply bind_ok in hb. destruct hb as [rc [hrc hb]].
    destruct (sub_ok _ _ _ hd) as [c1 [k1 [-> f1]]]. destruct (muln_ok _ _ _ hm) as [c2 [k2 [-> f2]]]. destruct (sub_ok _ _ _ hr) as [c3 [k3 [-> f3]]].
    destruct (mul_ok _ _ _ hha) as [c4 [s4 [p4 [k4 [-> f4]]]]]. destruct (mul_ok _ _ _ hp) as [c5 [s5 [p5 [k5 [-> f5]]]]].
    destruct (neg_ok _ _ hn) as [c6 [k6 [-> f6]]].
    destruct (mul_ok _ _ _ hrc) as [c7 [s7 [p7 [k7 [-> f7]]]]]. destruct (mul_ok _ _ _ hb) as [c8 [s8 [p8 [k8 [-> f8]]]]].
    pose proof (k7 (nz_carries _ n1) (nz_carries _ n2)) as kk7. pose proof (k8 (proj2 (carries_setv _ _) kk7) (nz_carries _ n3)) as kk8.
    destruct (div_ok _ _ _ (proj2 (carries_setv _ _) kk8) hy) as [c9 [s9 [p9 [k9 [_ [e9 f9]]]]]].
    exists c3, (s4 * s5 / (s7 * s8) * s9). split; [|split].
    - apply Rmult_lt_0_compat; [apply div_pos; apply Rmult_lt_0_compat|]; assumption.
    - exact k3.
    - intros x0 x1 x2 x3 x4 x5 x6 x7 z4 z5 z6. unfold lumped_parameter, omul, odiv, osub, oneg. cbn [bind].
      rewrite f1. cbn [bind]. rewrite f4. cbn [bind]. specialize (f5 (x2 * x3 * s4) x7). rewrite setv_setv in f5. rewrite f5. cbn [bind].
      specialize (f6 (x2 * x3 * s4 * x7 * s5)). rewrite setv_setv in f6. rewrite f6. cbn [bind]. rewrite f7. cbn [bind].
      specialize (f8 (x4 * x5 * s7) x6). rewrite setv_setv in f8. rewrite f8. cbn [bind].
      specialize (f9 (- (x2 * x3 * s4 * x7 * s5)) (x4 * x5 * s7 * x6 * s8)). rewrite !setv_setv in f9. rewrite f9 by (nzs).
      destruct c9 as [c9| | |c9|c9]; try discriminate e9. unfold math_exp, math1. cbn [bind setv].
      specialize (f2 (x0 - x1) (exp (- (x2 * x3 * s4 * x7 * s5) / (x4 * x5 * s7 * x6 * s8) * s9))). rewrite setv_setv in f2. rewrite f2. cbn [bind].
      specialize (f3 x0 ((x0 - x1) * exp (- (x2 * x3 * s4 * x7 * s5) / (x4 * x5 * s7 * x6 * s8) * s9))). rewrite setv_setv in f3. rewrite f3.
      unfold lumped.
      replace (- (x2 * x3 * s4 * x7 * s5) / (x4 * x5 * s7 * x6 * s8) * s9) with (- (x2 * x3 * x7) / (x4 * x5 * x6) * (s4 * s5 / (s7 * s8) * s9)); [reflexivity|].
      field. repeat split; lra. }
  destruct hgen as [c [S [hS [kc f]]]]. exists c, S. split; [exact hS|]. split; [exact kc|]. split; [|exact f].
  specialize (f (value Tf) (value To) (value h) (value A) (value rho) (value cP) (value V) (value t) n1 n2 n3). rewrite !setv_value in f. congruence.
Qed.
Lemma lumped_decay S x0 x1 x2 x3 x4 x5 x6 x7 : x4 <> 0 -> x5 <> 0 -> x6 <> 0 -> lumped S x0 x1 x2 x3 x4 x5 x6 x7 = x0 - (x0 - x1) * decay (x2 * S) x3 x4 x5 x6 x7.
Proof. intros. unfold lumped, decay.
  replace (- (x2 * x3 * x7) / (x4 * x5 * x6) * S) with (- (x2 * S * x3 * x7) / (x4 * x5 * x6)); [reflexivity|]. field. repeat split; assumption. Qed.
Lemma lump_bounds_gen Tf To h A rho cP V t r :
  0 < value h -> 0 < value A -> 0 < value rho -> 0 < value cP -> 0 < value V -> 0 <= value t -> lumped_parameter Tf To h A rho cP V t = Ok r ->
  Rmin (value Tf) (value To) <= value r <= Rmax (value Tf) (value To).
Proof.
  intros h1 h2 h3 h4 h5 h6 hr. destruct (lump_acts Tf To h A rho cP V t r) as [c [S [hS [kc [-> _]]]]]; try assumption; try lra.
  rewrite value_setv by exact kc. rewrite lumped_decay by lra. apply mix_bounds; [apply decay_pos|apply decay_le1; try assumption]. apply Rmult_lt_0_compat; assumption.
Qed.
Lemma lump_later Tf To h A rho cP V t t' r : value rho <> 0 -> value cP <> 0 -> value V <> 0 -> same_unit t t' ->
  lumped_parameter Tf To h A rho cP V t = Ok r -> exists S c, 0 < S /\ carries c /\
    r = setv c (lumped S (value Tf) (value To) (value h) (value A) (value rho) (value cP) (value V) (value t)) /\
    lumped_parameter Tf To h A rho cP V t' = Ok (setv c (lumped S (value Tf) (value To) (value h) (value A) (value rho) (value cP) (value V) (value t'))).
Proof.
  intros n1 n2 n3 hs hr. destruct (lump_acts Tf To h A rho cP V t r n1 n2 n3 hr) as [c [S [hS [kc [e f]]]]].
  exists S, c. split; [exact hS|]. split; [exact kc|]. split; [exact e|].
  specialize (f (value Tf) (value To) (value h) (value A) (value rho) (value cP) (value V) (value t') n1 n2 n3). rewrite !setv_value in f.
  rewrite <- (same_setv _ _ hs) in f. exact f.
Qed.
Lemma lump_monotone_gen Tf To h A rho cP V t t' r : same_unit t t' ->
  0 < value h -> 0 < value A -> 0 < value rho -> 0 < value cP -> 0 < value V -> value t < value t' ->
  lumped_parameter Tf To h A rho cP V t = Ok r ->
  exists r', lumped_parameter Tf To h A rho cP V t' = Ok r' /\ same_unit r r' /\
  (value To < value Tf -> value r < value r' < value Tf) /\ (value Tf < value To -> value Tf < value r' < value r) /\ (value To = value Tf -> value r = value Tf /\ value r' = value Tf).
Proof.
  intros hs h1 h2 h3 h4 h5 h6 hr. destruct (lump_later Tf To h A rho cP V t t' r) as [S [c [hS [kc [-> e]]]]]; try assumption; try lra.
  eexists. split; [exact e|]. split; [apply setv_same; exact kc|]. rewrite !value_setv by exact kc. rewrite !lumped_decay by lra.
  assert (hs' : 0 < value h * S) by (apply Rmult_lt_0_compat; assumption).
  pose proof (decay_decr (value h * S) (value A) (value rho) (value cP) (value V) hs' h2 h3 h4 h5 (value t) (value t') h6) as hd.
  pose proof (decay_pos (value h * S) (value A) (value rho) (value cP) (value V) (value t')) as hp.
  set (d := decay _ _ _ _ _ (value t)) in *. set (d' := decay _ _ _ _ _ (value t')) in *. split; [|split]; intro l.
  - assert (0 < (value Tf - value To) * d') by (apply Rmult_lt_0_compat; lra).
    assert ((value Tf - value To) * d' < (value Tf - value To) * d) by (apply Rmult_lt_compat_l; lra). lra.
  - assert (0 < (value To - value Tf) * d') by (apply Rmult_lt_0_compat; lra).
    assert ((value To - value Tf) * d' < (value To - value Tf) * d) by (apply Rmult_lt_compat_l; lra). lra.
  - rewrite l. lra.
Qed.
Lemma lump_limit_gen Tf To h A rho cP V t r : 0 < value h -> 0 < value A -> 0 < value rho -> 0 < value cP -> 0 < value V ->
  lumped_parameter Tf To h A rho cP V t = Ok r -> forall eps, 0 < eps ->
  exists t0, forall t', same_unit t t' -> t0 < value t' -> exists r', lumped_parameter Tf To h A rho cP V t' = Ok r' /\ Rabs (value r' - value Tf) < eps.
Proof.
  intros h1 h2 h3 h4 h5 hr eps he. destruct (lump_acts Tf To h A rho cP V t r) as [c [S [hS [kc [_ f]]]]]; try assumption; try lra.
  assert (hs' : 0 < value h * S) by (apply Rmult_lt_0_compat; assumption).
  set (d := Rabs (value Tf - value To) + 1). assert (hd : 0 < d) by (unfold d; pose proof (Rabs_pos (value Tf - value To)); lra).
  destruct (decay_lim (value h * S) (value A) (value rho) (value cP) (value V) hs' h2 h3 h4 h5 (eps / d) (div_pos _ _ he hd)) as [t0 h0].
  exists t0. intros t' hs ht. specialize (f (value Tf) (value To) (value h) (value A) (value rho) (value cP) (value V) (value t') ltac:(lra) ltac:(lra) ltac:(lra)).
  rewrite !setv_value in f. rewrite <- (same_setv _ _ hs) in f. eexists. split; [exact f|]. rewrite value_setv by exact kc. rewrite lumped_decay by lra. specialize (h0 _ ht).
  pose proof (decay_pos (value h * S) (value A) (value rho) (value cP) (value V) (value t')) as hp. set (e := decay _ _ _ _ _ _) in *.
  replace (value Tf - (value Tf - value To) * e - value Tf) with (- ((value Tf - value To) * e)) by ring.
  rewrite Rabs_Ropp, Rabs_mult, (Rabs_right e) by lra.
  apply (Rle_lt_trans _ (d * e)); [apply Rmult_le_compat_r; [lra|unfold d; lra]|].
  apply (Rmult_lt_compat_l d) in h0; [|exact hd]. replace (d * (eps / d)) with eps in h0 by (field; lra). exact h0.
Qed.
(** Consistent units, each list: h, A, rho, cP, V, time, temperature. *)
Definition lump_args (q : string * string * string * string * string * string * string) : list (res sval) :=
  let '(h, A, rho, cP, V, t, th) := q in
  [ssimple Temperature th; ssimple Temperature th; smulti "HeatTransferCoefficient" h; ssimple Area A; smulti "Density" rho; smulti "Cp" cP; ssimple Volume V; ssimple Time t].
Definition lump_sys q : bool := sys_ok (lump_args q) f_lump (is_unit (let '(h, A, rho, cP, V, t, th) := q in th)).
Lemma lump_sweep : forallb lump_sys lump_texts = true.
Proof. vm_compute. reflexivity. Qed.
Lemma lump_units sh sA srho scP sV st th (Tf To h A rho cP V t : R) v0 v1 v2 v3 v4 v5 v6 v7 : In (sh, sA, srho, scP, sV, st, th) lump_texts ->
  simple Temperature Tf th = Ok v0 -> simple Temperature To th = Ok v1 -> multi "HeatTransferCoefficient" h sh = Ok v2 -> simple Area A sA = Ok v3 ->
  multi "Density" rho srho = Ok v4 -> multi "Cp" cP scP = Ok v5 -> simple Volume V sV = Ok v6 -> simple Time t st = Ok v7 ->
  rho <> 0 -> cP <> 0 -> V <> 0 ->
  exists u, lumped_parameter v0 v1 v2 v3 v4 v5 v6 v7 = Ok (VUnit u) /\ un u = th /\ ev (ue u) = qc 1 /\
    uv u = Tf - (Tf - To) * exp (- (h * A * t) / (rho * cP * V)).
Proof.
  intros hi e0 e1 e2 e3 e4 e5 e6 e7 n1 n2 n3. pose proof (in_sweep _ _ _ lump_sweep hi) as hs. unfold lump_sys in hs.
  assert (hm : makes_all (lump_args (sh, sA, srho, scP, sV, st, th)) [v0; v1; v2; v3; v4; v5; v6; v7] [Tf; To; h; A; rho; cP; V; t]) by (unfold lump_args; make).
  destruct (sys_sound _ _ _ _ _ hm hs (lump_def _ _ _ _ _ _ _ _ n1 n2 n3)) as [r [e [k [v _]]]]. rewrite lump_run, e.
  destruct (is_unit_ok _ _ k) as [u [-> [n x]]]. exists u. auto.
Qed.
