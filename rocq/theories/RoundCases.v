(** * RoundCases: rounding to 53 bits, temperatures, round trips, binary64 cases *)
From Coq Require Import String Ascii List ZArith QArith Qcanon Bool Reals Qreals Lia Lra.
From Coq Require Import Floats.SpecFloat.
From Verif Require Import Py Num NumFacts UnitsData UnitsStruct Units Expr Rounding RoundSpec RoundFacts RoundErr ConvFacts ConvLaws UnitConvSpec.
Import ListNotations.
Local Open Scope string_scope.
Local Open Scope list_scope.
Local Open Scope R_scope.

(** ** Rounding to the nearest number of 53 bits *)
Definition log2 (x : R) : R := ln x / ln 2.
Definition scale (x : R) : Z := (up (log2 (Rabs x)) - 53)%Z.
Definition nearest (t : R) : Z := up (t - / 2).
Definition round53 (x : R) : R := if Req_EM_T x 0 then 0 else IZR (nearest (x / powerRZ 2 (scale x))) * powerRZ 2 (scale x).
Definition arith53 : arith := {|
  a_add := fun x y => round53 (x + y); a_sub := fun x y => round53 (x - y);
  a_mul := fun x y => round53 (x * y); a_div := fun x y => round53 (x / y);
  a_lit := fun q => round53 (Q2R q); a_pow := fun x q => rmap round53 (Rpowq x q) |}.

Lemma ln2_pos : 0 < ln 2.
Proof. rewrite <- ln_1. apply ln_increasing; lra. Qed.
Lemma log2_spec x : 0 < x -> exp (log2 x * ln 2) = x.
Proof. intro h. unfold log2. replace (ln x / ln 2 * ln 2) with (ln x) by (field; pose proof ln2_pos; lra). apply exp_ln, h. Qed.
Lemma p2_exp z : powerRZ 2 z = exp (IZR z * ln 2).
Proof. rewrite powerRZ_Rpower by lra. reflexivity. Qed.
Lemma p2_pos z : 0 < powerRZ 2 z.
Proof. apply powerRZ_lt. lra. Qed.
Lemma scale_spec x : x <> 0 -> powerRZ 2 (scale x + 52) <= Rabs x < powerRZ 2 (scale x + 53).
Proof.
  intro h. apply Rabs_pos_lt in h. unfold scale. set (t := log2 (Rabs x)). destruct (archimed t) as (h1 & h2). rewrite !p2_exp, !plus_IZR, minus_IZR.
  rewrite <- (log2_spec (Rabs x) h). fold t. pose proof ln2_pos. split.
  - replace (IZR (up t) - 53 + 52) with (IZR (up t) - 1) by ring.
    assert (e : (IZR (up t) - 1) * ln 2 <= t * ln 2) by (apply Rmult_le_compat_r; lra).
    destruct e as [e|e]; [left; apply exp_increasing, e|right; rewrite e; reflexivity].
  - apply exp_increasing. apply Rmult_lt_compat_r; lra.
Qed.
Lemma nearest_spec t : Rabs (IZR (nearest t) - t) <= / 2.
Proof. unfold nearest. destruct (archimed (t - / 2)). apply Rabs_le. lra. Qed.
Lemma nearest_int z : nearest (IZR z) = z.
Proof.
  unfold nearest. destruct (archimed (IZR z - / 2)) as (h1 & h2).
  assert (a : (z - 1 < up (IZR z - / 2))%Z) by (apply lt_IZR; rewrite minus_IZR; lra).
  assert (b : (up (IZR z - / 2) < z + 1)%Z) by (apply lt_IZR; rewrite plus_IZR; lra). lia.
Qed.
Lemma round53_near x : near1 (/ 2 ^ 53) x (round53 x).
Proof.
  unfold near1, round53. destruct (Req_EM_T x 0) as [->|h]; [rewrite Rminus_0_r, Rabs_R0; lra|].
  set (k := scale x). pose proof (p2_pos k) as p. destruct (scale_spec x h) as (s & _). fold k in s.
  replace (IZR (nearest (x / powerRZ 2 k)) * powerRZ 2 k - x) with ((IZR (nearest (x / powerRZ 2 k)) - x / powerRZ 2 k) * powerRZ 2 k) by (field; lra).
  rewrite Rabs_mult, (Rabs_pos_eq (powerRZ 2 k)) by lra. pose proof (nearest_spec (x / powerRZ 2 k)) as n.
  apply Rle_trans with (/ 2 * powerRZ 2 k); [apply Rmult_le_compat_r; lra|].
  apply Rle_trans with (/ 2 ^ 53 * powerRZ 2 (k + 52)); [|apply Rmult_le_compat_l; [left; apply Rinv_0_lt_compat, pow_lt; lra|exact s]].
  rewrite powerRZ_add by lra. change (powerRZ 2 52) with (2 ^ 52). right. change 53%nat with (S 52). cbn [pow]. field.
Qed.
Lemma round53_int z : (Z.abs z <= 2 ^ 53)%Z -> round53 (IZR z) = IZR z.
Proof.
  intro h. unfold round53. destruct (Req_EM_T (IZR z) 0) as [e|e]; [symmetry; exact e|].
  destruct (scale_spec _ e) as (s1 & s2). set (k := scale (IZR z)) in *. pose proof (p2_pos k) as p.
  assert (i : exists w, IZR z / powerRZ 2 k = IZR w).
  { destruct (Z_le_gt_dec k 0) as [l|g].
    - exists (z * 2 ^ (- k))%Z. rewrite mult_IZR. unfold Rdiv. f_equal. rewrite <- powerRZ_neg'.
      rewrite <- (Z2Nat.id (- k)) by lia. generalize (Z.to_nat (- k)). intro n. rewrite <- pow_powerRZ, pow_IZR. reflexivity.
    - rewrite <- abs_IZR in s1, s2. apply IZR_le in h.
      assert (k = 1)%Z.
      { destruct (Z.eq_dec k 1) as [|ne]; [assumption|exfalso]. assert (q : powerRZ 2 54 <= powerRZ 2 (k + 52)).
        { rewrite !p2_exp. assert (w : IZR 54 <= IZR (k + 52)) by (apply IZR_le; lia). pose proof ln2_pos.
          assert (v : IZR 54 * ln 2 <= IZR (k + 52) * ln 2) by (apply Rmult_le_compat_r; lra).
          destruct v as [v|v]; [left; apply exp_increasing, v|right; rewrite v; reflexivity]. }
        change (powerRZ 2 54) with (2 ^ 54) in q. replace (2 ^ 54) with (IZR (2 ^ 54)) in q by (rewrite (pow_IZR 2 54); reflexivity).
        assert (r : IZR (2 ^ 53) < IZR (2 ^ 54)) by (apply IZR_lt; reflexivity). lra. }
      assert (z2 : (Z.abs z = 2 ^ 53)%Z).
      { apply Z.le_antisymm; [apply le_IZR; exact h|]. apply le_IZR. apply Rle_trans with (2 := s1). rewrite H. right.
        change (powerRZ 2 (1 + 52)) with (2 ^ 53). rewrite (pow_IZR 2 53). reflexivity. }
      rewrite H. change (powerRZ 2 1) with (2 ^ 1). rewrite pow_1. assert (o : (z = 2 ^ 53 \/ z = - 2 ^ 53)%Z) by lia. destruct o as [-> | ->].
      + exists (2 ^ 52)%Z. replace (2 ^ 53)%Z with (2 * 2 ^ 52)%Z by reflexivity. rewrite mult_IZR. field.
      + exists (- 2 ^ 52)%Z. replace (- 2 ^ 53)%Z with (2 * - 2 ^ 52)%Z by reflexivity. rewrite mult_IZR. field. }
  destruct i as (w & i). rewrite i, nearest_int, <- i. field. lra.
Qed.
Lemma arith53_accurate : accurate (/ 2 ^ 53) arith53.
Proof.
  repeat split; intros; cbn [a_add a_sub a_mul a_div a_lit a_pow arith53]; try apply round53_near.
  - replace (Q2R (inject_Z z)) with (IZR z) by (unfold Q2R; cbn; field). apply round53_int. assumption.
  - destruct (Rpowq x q) as [v|e]; cbn [rmap]; [|reflexivity]. eexists. split; [reflexivity|apply round53_near].
Qed.

(** ** What the runs say, without the count's own run *)
Section Runs.
Variables (u : R) (a : arith).
Hypothesis hu : 0 <= u < 1.
Hypothesis ha : accurate u a.

Lemma outcome (P : R -> R -> nat -> Prop) r s (c : res (pyval nat)) : rr false (relv P) r s c ->
  same_outcome (fun x y => P x y (count c)) r s.
Proof.
  intro h. apply rr_tight in h. destruct r as [x|e], s as [y|e']; cbn in h; try contradiction; [|exact h].
  destruct h as (z & -> & h). cbn [same_outcome]. destruct x, y, z; cbn in *; try contradiction; try exact h.
  - unfold relu in h. destruct h as (h1 & h2 & h3 & h4 & h5 & h6 & h7). auto.
  - unfold relm in h. destruct h as (h1 & h2 & h3 & h4 & h5 & h6 & h7). auto.
Qed.
Lemma same_weaken (P Q : R -> R -> Prop) : (forall x y, P x y -> Q x y) -> forall r s, same_outcome P r s -> same_outcome Q r s.
Proof.
  intros h r s. destruct r as [x|e], s as [y|e']; cbn; try tauto. destruct x, y; cbn; try tauto; try apply h; intuition.
Qed.
Lemma rounded_products e : no_sums e -> same_outcome (within u (roundings e)) (eval e) (feval a e).
Proof. intro h. exact (outcome _ _ _ _ (run_close u hu a ha e h)). Qed.
Lemma rounded_sums e : only_positive e -> same_outcome (within u (roundings e)) (eval e) (feval a e).
Proof.
  intro h. eapply same_weaken; [|exact (outcome _ _ _ _ (run_pclose u hu a ha e h))]. intros x y (_ & k). exact k.
Qed.
Lemma rounded_conversion m target : same_outcome (within u (convert_roundings m target))
  (rmap VMulti (multi_convert_to tables0 m target)) (rmap VMulti (fconvert a m target)).
Proof.
  unfold convert_roundings. pose proof (rr_tight _ _ _ _ (run_convert u hu a ha m target)) as h.
  destruct (multi_convert_to tables0 m target) as [x|e], (fconvert a m target) as [y|e']; cbn in h; try contradiction; [|exact h].
  destruct h as (z & -> & h). cbn. unfold relm in h. destruct h as (h1 & h2 & h3 & h4 & h5 & h6 & h7). auto.
Qed.
Lemma rounded_unit_conversion w target : uc w <> Temperature -> same_outcome (within u (convert_unit_roundings w target))
  (rmap VUnit (unit_convert_to tables0 w target)) (rmap VUnit (fconvert_unit a w target)).
Proof.
  intro ht. unfold convert_unit_roundings. pose proof (rr_tight _ _ _ _ (run_convert_unit u hu a ha w target ht)) as h.
  destruct (unit_convert_to tables0 w target) as [x|e], (fconvert_unit a w target) as [y|e']; cbn in h; try contradiction; [|exact h].
  destruct h as (z & -> & h). cbn. unfold relu in h. destruct h as (h1 & h2 & h3 & h4 & h5 & h6 & h7). auto.
Qed.

(** ** There and back *)
Lemma convert_scale_value c v t b f s r : multi_convert_to tables0 (MO c v t b) s = Ok r ->
  multi_convert_to tables0 (MO c (v * f) t b) s = Ok (MO (mc r) (mv r * f) (mtop r) (mbot r)).
Proof.
  intro h. apply convert_eq in h. destruct h as (pt & pb & rt & rb & rf & lt & lb & lf & h1 & h2 & h3 & h4 & h5 & h6 & ->).
  apply convert_eq. exists pt, pb, rt, rb, rf, lt, lb, lf. cbn [mc mv mtop mbot] in *. repeat (split; [assumption|]). f_equal. ring.
Qed.
Lemma rounded_round_trip m s s0 r r' : parse_units s0 = Ok (mtop m, mbot m) ->
  fconvert a m s = Ok r -> fconvert a r s0 = Ok r' ->
  mc r' = mc m /\ mtop r' = mtop m /\ mbot r' = mbot m /\
  within u (convert_roundings m s + convert_roundings r s0) (mv m) (mv r').
Proof.
  intros h0 h1 h2. pose proof (rounded_conversion m s) as k1. pose proof (rounded_conversion r s0) as k2. rewrite h1 in k1. rewrite h2 in k2.
  destruct (multi_convert_to tables0 m s) as [x|e] eqn:e1; cbn in k1; [|contradiction].
  destruct (multi_convert_to tables0 r s0) as [y|e] eqn:e2; cbn in k2; [|contradiction].
  destruct k1 as (c1 & t1 & b1 & w1). destruct k2 as (c2 & t2 & b2 & w2).
  destruct w1 as (f & hf & wf). destruct m as [mc0 mv0 mt0 mb0]. cbn [mc mv mtop mbot] in *.
  pose proof (convert_scale_value _ _ _ _ f _ _ e1) as e1'.
  assert (er : MO (mc x) (mv x * f) (mtop x) (mbot x) = r) by (destruct r; cbn in *; subst; reflexivity). rewrite er in e1'.
  destruct (round_trip tables0 (MO mc0 (mv0 * f) mt0 mb0) s s0 r h0 e1') as (back & _). pose proof (back y e2) as ey. subst y. cbn [mc mv mtop mbot] in *.
  repeat split; try congruence. apply (within_trans u hu _ _ _ (mv0 * f)); [exists f; auto|exact w2].
Qed.

(** The bound in plain terms. *)
Lemma bernoulli n : 1 - INR n * u <= (1 - u) ^ n.
Proof.
  induction n as [|n IH]; [cbn; lra|]. rewrite S_INR. cbn [pow]. pose proof (base_pos u hu n). pose proof (base_le1 u hu n).
  pose proof (pos_INR n). assert (INR n * u * u >= 0) by (apply Rle_ge, Rmult_le_pos; [apply Rmult_le_pos|]; lra). nra.
Qed.
Lemma within_bound n x y : INR n * u <= / 100 -> within u n x y -> Rabs (y - x) <= 1.02 * INR n * u * Rabs x.
Proof.
  intros h (f & (f1 & f2) & ->). pose proof (bernoulli n) as b. pose proof (base_pos u hu n) as p.
  replace (x * f - x) with (x * (f - 1)) by ring. rewrite Rabs_mult, Rmult_comm. apply Rmult_le_compat_r; [apply Rabs_pos|].
  set (t := INR n * u) in *. assert (t0 : 0 <= t) by (apply Rmult_le_pos; [apply pos_INR|lra]).
  replace (1.02 * INR n * u) with (1.02 * t) by (unfold t; ring).
  assert (f3 : f <= / (1 - t)) by (apply Rle_trans with (1 := f2); apply Rinv_le_contravar; lra).
  assert (f4 : / (1 - t) <= 1 + 1.02 * t).
  { apply (Rmult_le_reg_r (1 - t)); [lra|]. rewrite Rinv_l by lra. nra. }
  apply Rabs_le. lra.
Qed.

(** ** Temperatures: an absolute error *)
Hypothesis hs : u <= / 10000.
Definition ab (M k x y : R) : Prop := Rabs x <= M /\ Rabs (y - x) <= k * u * M.
Lemma ab_in x : ab (Rabs x) 0 x x.
Proof. split; [lra|]. replace (x - x) with 0 by ring. rewrite Rabs_R0. lra. Qed.
Lemma ab_lit q : ab (Rabs (Q2R q)) 1 (Q2R q) (a_lit a q).
Proof. destruct ha as (_ & _ & _ & _ & l & _). split; [lra|]. specialize (l q). unfold near1 in l. lra. Qed.
Lemma ab_round M k x y z : 0 <= k <= 50 -> ab M k x y -> near1 u y z -> ab M (k + 1.01) x z.
Proof.
  intros hk (h1 & h2) h. split; [exact h1|]. unfold near1 in h. pose proof (Rabs_pos x) as p.
  assert (hy : Rabs y <= M * (1 + k * u)).
  { replace y with (x + (y - x)) by ring. apply Rle_trans with (1 := Rabs_triang _ _). lra. }
  replace (z - x) with ((z - y) + (y - x)) by ring. apply Rle_trans with (1 := Rabs_triang _ _).
  assert (e : u * Rabs y <= u * (M * (1 + k * u))) by (apply Rmult_le_compat_l; lra).
  assert (k * u <= 0.01) by nra. assert (0 <= u * M) by (apply Rmult_le_pos; lra). nra.
Qed.
Lemma ab_sum M k M' k' x y x' y' K : k <= K -> k' <= K -> ab M k x y -> ab M' k' x' y' -> ab (M + M') K (x + x') (y + y').
Proof.
  intros hk hk' (h1 & h2) (h1' & h2'). split; [apply Rle_trans with (1 := Rabs_triang _ _); lra|].
  replace (y + y' - (x + x')) with ((y - x) + (y' - x')) by ring. apply Rle_trans with (1 := Rabs_triang _ _).
  pose proof (Rabs_pos x). pose proof (Rabs_pos x'). assert (0 <= u * M) by (apply Rmult_le_pos; lra). assert (0 <= u * M') by (apply Rmult_le_pos; lra). nra.
Qed.
Lemma ab_opp M k x y : ab M k x y -> ab M k (- x) (- y).
Proof. intros (h1 & h2). split; [rewrite Rabs_Ropp; exact h1|]. replace (- y - - x) with (- (y - x)) by ring. rewrite Rabs_Ropp. exact h2. Qed.
Lemma ab_add M k M' k' x y x' y' K : k <= K -> k' <= K -> 0 <= K <= 50 -> ab M k x y -> ab M' k' x' y' -> ab (M + M') (K + 1.01) (x + x') (a_add a y y').
Proof. intros h h' hK h1 h2. apply (ab_round _ _ _ (y + y')); [exact hK|apply (ab_sum _ k _ k'); assumption|]. destruct ha as (s & _). apply s. Qed.
Lemma ab_sub M k M' k' x y x' y' K : k <= K -> k' <= K -> 0 <= K <= 50 -> ab M k x y -> ab M' k' x' y' -> ab (M + M') (K + 1.01) (x - x') (a_sub a y y').
Proof.
  intros h h' hK h1 h2. apply (ab_round _ _ _ (y - y')); [exact hK|apply (ab_sum _ k _ k'); try assumption; apply ab_opp, h2|]. destruct ha as (_ & s & _). apply s.
Qed.
Lemma ab_mul M k M' k' x y x' y' : 0 <= k <= 20 -> 0 <= k' <= 20 -> ab M k x y -> ab M' k' x' y' -> ab (M * M') (k + k' + 1.06) (x * x') (a_mul a y y').
Proof.
  intros hk hk' (h1 & h2) (h1' & h2'). replace (k + k' + 1.06) with ((k + k' + 0.05) + 1.01) by lra.
  apply (ab_round _ _ _ (y * y')); [lra| |destruct ha as (_ & _ & m & _); apply m].
  pose proof (Rabs_pos x). pose proof (Rabs_pos x'). assert (0 <= M * M') by (apply Rmult_le_pos; lra).
  split; [rewrite Rabs_mult; apply Rmult_le_compat; try apply Rabs_pos; assumption|].
  replace (y * y' - x * x') with ((y - x) * x' + x * (y' - x') + (y - x) * (y' - x')) by ring.
  apply Rle_trans with (1 := Rabs_triang _ _). apply Rle_trans with (k * u * M * M' + M * (k' * u * M') + k * u * M * (k' * u * M')).
  - apply Rplus_le_compat.
    + apply Rle_trans with (1 := Rabs_triang _ _). rewrite !Rabs_mult. apply Rplus_le_compat; apply Rmult_le_compat; try apply Rabs_pos; assumption.
    + rewrite Rabs_mult. apply Rmult_le_compat; try apply Rabs_pos; assumption.
  - assert (kk : k * k' <= 400) by nra. assert (k * k' * u <= 0.04) by nra. assert (0 <= u * (M * M')) by (apply Rmult_le_pos; lra).
    replace (k * u * M * M' + M * (k' * u * M') + k * u * M * (k' * u * M')) with ((k + k' + k * k' * u) * (u * (M * M'))) by ring.
    replace ((k + k' + 0.05) * u * (M * M')) with ((k + k' + 0.05) * (u * (M * M'))) by ring. apply Rmult_le_compat_r; lra.
Qed.
Lemma ab_over M k x y q : (0 < q)%Q -> 0 <= k <= 20 -> ab M k x y -> ab (M / Q2R q) (k + 2.05) (x / Q2R q) (a_div a y (a_lit a q)).
Proof.
  intros hq hk (h1 & h2). apply Qlt_Rlt in hq. rewrite q2r_0 in hq.
  assert (l : within u 1 (Q2R q) (a_lit a q)) by (apply near_within; [exact hu|]; destruct ha as (_ & _ & _ & _ & l & _); apply l).
  assert (hl : a_lit a q <> 0) by (intro e; apply (within_eq u hu _ _ _ l) in e; lra).
  replace (k + 2.05) with ((k + 1.04) + 1.01) by lra.
  apply (ab_round _ _ _ (y / a_lit a q)); [lra| |destruct ha as (_ & _ & _ & d & _); apply d, hl].
  destruct l as (f & (f1 & f2) & e). cbn [pow] in f1, f2. rewrite Rmult_1_r in f1, f2. assert (fp : 0 < f) by lra.
  pose proof (Rabs_pos x). assert (Mp : 0 <= M / Q2R q) by (apply Rmult_le_pos; [lra|left; apply Rinv_0_lt_compat; lra]).
  split; [unfold Rdiv; rewrite Rabs_mult, (Rabs_pos_eq (/ Q2R q)) by (left; apply Rinv_0_lt_compat; lra); apply Rmult_le_compat_r; [left; apply Rinv_0_lt_compat; lra|exact h1]|].
  rewrite e. replace (y / (Q2R q * f) - x / Q2R q) with (((y - x) * / f + x * (/ f - 1)) * / Q2R q) by (field; lra).
  rewrite Rabs_mult, (Rabs_pos_eq (/ Q2R q)) by (left; apply Rinv_0_lt_compat; lra). unfold Rdiv. rewrite <- Rmult_assoc.
  apply Rmult_le_compat_r; [left; apply Rinv_0_lt_compat; lra|]. apply Rle_trans with (1 := Rabs_triang _ _). rewrite !Rabs_mult.
  assert (g1 : / f <= 1 + 1.0002 * u).
  { apply (Rmult_le_reg_r f); [exact fp|]. rewrite Rinv_l by lra. nra. }
  assert (g2 : 1 - u <= / f).
  { apply (Rmult_le_reg_r f); [exact fp|]. rewrite Rinv_l by lra. assert (f * (1 - u) <= 1); [|lra].
    apply Rle_trans with (/ (1 - u) * (1 - u)); [apply Rmult_le_compat_r; lra|rewrite Rinv_l; lra]. }
  rewrite (Rabs_pos_eq (/ f)) by (left; apply Rinv_0_lt_compat, fp).
  assert (g3 : Rabs (/ f - 1) <= 1.0002 * u) by (apply Rabs_le; lra).
  apply Rle_trans with (k * u * M * (1 + 1.0002 * u) + M * (1.0002 * u)).
  - apply Rplus_le_compat; apply Rmult_le_compat; try apply Rabs_pos; try assumption. left. apply Rinv_0_lt_compat, fp.
  - assert (0 <= M) by lra. assert (0 <= u * M) by (apply Rmult_le_pos; lra). assert (k * (1.0002 * u) <= 0.0025) by nra.
    replace (k * u * M * (1 + 1.0002 * u) + M * (1.0002 * u)) with ((k + k * (1.0002 * u) + 1.0002) * (u * M)) by ring.
    replace ((k + 1.04) * u * M) with ((k + 1.04) * (u * M)) by ring. apply Rmult_le_compat_r; lra.
Qed.
Lemma pow_one x q : ev q = qc 1 -> Rpowq x (ev q) = Ok x.
Proof.
  intro h. rewrite h. unfold Rpowq. change (is_int (qc 1)) with true. change (Qcltb (qc 1) (qc 0)) with false. rewrite andb_false_r.
  change (Qnum (this (qc 1))) with 1%Z. cbn [powerRZ]. f_equal. change (Pos.to_nat 1) with 1%nat. apply pow_1.
Qed.
Lemma ab_pow1 M k x y q : 0 <= k <= 20 -> ev q = qc 1 -> ab M k x y -> exists z, a_pow a y (ev q) = Ok z /\ ab M (k + 1.01) x z.
Proof.
  intros hk hq h. destruct ha as (_ & _ & _ & _ & _ & _ & p). specialize (p y (ev q)). rewrite (pow_one y q hq) in p.
  destruct p as (w & e & p). exists w. split; [exact e|]. apply (ab_round _ _ _ y); [lra|assumption|exact p].
Qed.
Lemma ab_add' M k M' k' x y x' y' : ab M k x y -> ab M' k' x' y' -> 0 <= k <= 20 -> 0 <= k' <= 20 -> ab (M + M') (k + k' + 1.01) (x + x') (a_add a y y').
Proof. intros. apply (ab_add _ k _ k'); try assumption; lra. Qed.
Lemma ab_sub' M k M' k' x y x' y' : ab M k x y -> ab M' k' x' y' -> 0 <= k <= 20 -> 0 <= k' <= 20 -> ab (M + M') (k + k' + 1.01) (x - x') (a_sub a y y').
Proof. intros. apply (ab_sub _ k _ k'); try assumption; lra. Qed.
Lemma ab_mul' M k M' k' x y x' y' : ab M k x y -> ab M' k' x' y' -> 0 <= k <= 20 -> 0 <= k' <= 20 -> ab (M * M') (k + k' + 1.06) (x * x') (a_mul a y y').
Proof. intros. apply ab_mul; assumption. Qed.
Lemma ab_over' M k x y q : ab M k x y -> (0 < q)%Q -> 0 <= k <= 20 -> ab (M / Q2R q) (k + 2.05) (x / Q2R q) (a_div a y (a_lit a q)).
Proof. intros. apply ab_over; assumption. Qed.
Ltac build := lazymatch goal with
  | |- ab _ _ _ (a_add a _ _) => eapply ab_add'; [build|build| |]
  | |- ab _ _ _ (a_sub a _ _) => eapply ab_sub'; [build|build| |]
  | |- ab _ _ _ (a_mul a _ _) => eapply ab_mul'; [build|build| |]
  | |- ab _ _ _ (a_div a _ (a_lit a _)) => eapply ab_over'; [build|reflexivity|]
  | |- ab _ _ _ (a_lit a _) => apply ab_lit
  | h : ab _ _ _ ?y |- ab _ _ _ ?y => exact h
  | |- _ => apply ab_in
  end.
Lemma step (P : res R -> Prop) X Y q M k : ab M k X Y -> 0 <= k <= 20 -> ev q = qc 1 ->
  (forall z, ab M (k + 1.01) X z -> P (Ok z)) -> P (a_pow a Y (ev q)).
Proof. intros h hk hq hp. destruct (ab_pow1 M k X Y q hk hq h) as (z & -> & hz). apply hp, hz. Qed.
Ltac stepper := match goal with |- context [a_pow a ?YY ?qq] =>
  pattern (a_pow a YY qq); eapply step; [build|lra|reflexivity|intros ? ?; cbn [bind]] end.
Lemma ab_end M k x y B : ab M k x y -> k * M <= 12 * B -> Rabs (y - x) <= 12 * u * B.
Proof.
  intros (_ & h) hb. apply Rle_trans with (1 := h). replace (k * u * M) with (u * (k * M)) by ring. replace (12 * u * B) with (u * (12 * B)) by ring.
  apply Rmult_le_compat_l; lra.
Qed.
Lemma lit_abs q : (0 <= q)%Q -> Rabs (Q2R q) = Q2R q.
Proof. intro h. apply Rabs_pos_eq. apply Qle_Rle in h. rewrite q2r_0 in h. exact h. Qed.
Lemma rounded_temperature s t v w : simple w Temperature v (tname s) ->
  exists r r', unit_convert_to tables0 w (tname t) = Ok r /\ fconvert_unit a w (tname t) = Ok r' /\
    uc r' = uc r /\ un r' = un r /\ ue r' = ue r /\ Rabs (uv r' - uv r) <= 12 * u * (2 * Rabs v + 1200).
Proof.
  destruct w as [c x n e]. intros (h1 & h2 & h3 & h4). cbn in h1, h2, h3, h4. subst c x n.
  assert (p : forall x, Rpowq x (ev (eint 1)) = Ok x) by (intro; apply pow_one; reflexivity).
  assert (zero : 0 <= u * (2 * Rabs v + 1200)) by (apply Rmult_le_pos; [lra|pose proof (Rabs_pos v); lra]).
  unfold fconvert_unit, unit_convert_to.
  destruct s, t; cbn [tname mem_str existsb UNIT_COMPOSITES String.eqb Ascii.eqb Bool.eqb andb orb un has_char uc];
    change (has_char "^" "K") with false; change (has_char "^" "C") with false; change (has_char "^" "F") with false; change (has_char "^" "R") with false;
    cbv iota; unfold unit_convert_core; cbn [un uc uv standard String.eqb Ascii.eqb Bool.eqb];
    try (do 2 eexists; repeat (split; [reflexivity|]); cbn [uv]; replace (v - v) with 0 by ring; rewrite Rabs_R0; lra).
  all: unfold from_val, to_val; cbn [tab_get from_standard to_standard tables0 from_standard0 to_standard0 dict_get String.eqb Ascii.eqb Bool.eqb bind
      nq nadd nsub nmul ndiv npow Rnum Fnum times over]; unfold times, over; cbn [bind nmul ndiv nq Rnum Fnum]; rewrite ?p; cbn [bind]; rewrite ?p; cbn [bind].
  all: stepper; try stepper.
  all: try (split; lra); cbn [mk_unit bind]; do 2 eexists; repeat (split; [reflexivity|]); cbn [uv].
  all: match goal with h : ab _ _ _ ?z |- Rabs (?z - _) <= _ => eapply (ab_end _ _ _ _ _ h) end.
  all: rewrite ?lit_abs by (vm_compute; discriminate); unfold Q2R; cbn [Qnum Qden]; pose proof (Rabs_pos v); lra.
Qed.
End Runs.

(** ** Binary64 cases *)
Definition bconvert (m : multi_obj spec_float) (s : string) : res (multi_obj spec_float) :=
  @multi_convert_to spec_float Bnum (@tables0 spec_float Bnum) m s.
Definition bconvert_unit (w : unit_obj spec_float) (s : string) : res (unit_obj spec_float) :=
  @unit_convert_to spec_float Bnum (@tables0 spec_float Bnum) w s.
Lemma seven_back : exists m r r', mk_multi MMulti (f_int 7) "m/s" = Ok m /\ bconvert m "km/hr" = Ok r /\ bconvert r "m/s" = Ok r' /\
  mtop r' = mtop m /\ mbot r' = mbot m /\ SFeqb (mv r') (mv m) = false.
Proof. do 3 eexists. repeat (split; [vm_compute; reflexivity|]). vm_compute. reflexivity. Qed.
Lemma tenth_back : exists w r r', mk_unit Temperature (f_lit (1 # 10)) "C" (eint 1) = Ok w /\ bconvert_unit w "K" = Ok r /\ bconvert_unit r "C" = Ok r' /\
  un r' = un w /\ ue r' = ue w /\ SFeqb (uv r') (uv w) = false.
Proof. do 3 eexists. repeat (split; [vm_compute; reflexivity|]). vm_compute. reflexivity. Qed.
(** An expression in units with prefixes: (5 km/hr * 3 kg/m^3) / 2 cm, squared. *)
Definition bu_ (n : string) (k : Z) : bu := BU n (eflt (qc k)).
Definition sample : expr :=
  EPow (EDiv (EMul (ELeaf (VMulti (MO MMulti 5 [bu_ "km" 1] [bu_ "hr" 1])))
                   (ELeaf (VMulti (MO MMulti 3 [bu_ "kg" 1] [bu_ "m" 3]))))
             (ELeaf (VMulti (MO MMulti 2 [bu_ "cm" 1] [])))) (eint 2).
Lemma sample_count : no_sums sample /\ (exists r, @geval nat Cnum fresh sample = Ok r) /\ roundings sample = 21%nat.
Proof. split; [cbn; tauto|]. split; [eexists; vm_compute; reflexivity|vm_compute; reflexivity]. Qed.
Definition sample_sum : expr :=
  EMul (EAdd (ELeaf (VMulti (MO MMulti 5 [bu_ "km" 1] [bu_ "hr" 1]))) (ELeaf (VMulti (MO MMulti 3 [bu_ "km" 1] [bu_ "hr" 1]))))
       (ELeaf (VUnit (UO Time 2 "s" (eint 1)))).
Lemma sample_sum_count : only_positive sample_sum /\ (exists r, @geval nat Cnum fresh sample_sum = Ok r) /\ roundings sample_sum = 2%nat.
Proof. split; [cbn; lra|]. split; [eexists; vm_compute; reflexivity|vm_compute; reflexivity]. Qed.
Lemma speed_count : let m := MO MMulti 36 [bu_ "km" 1] [bu_ "hr" 1] in convert_roundings m "m/s" = 14%nat.
Proof. vm_compute. reflexivity. Qed.
