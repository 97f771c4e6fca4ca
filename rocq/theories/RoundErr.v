(** * RoundErr: roundings multiply, and the model's runs stay close *)
From Coq Require Import String Ascii List ZArith QArith Qcanon Bool Reals Qreals Qabs Qround Lia Lra.
From Verif Require Import Py Num NumFacts UnitsData UnitsStruct Units Expr Rounding RoundSpec RoundFacts.
Import ListNotations.
Local Open Scope string_scope.
Local Open Scope list_scope.
Local Open Scope R_scope.

Lemma Rabs_le_inv x y : Rabs x <= y -> - y <= x <= y.
Proof. intro h. pose proof (Rle_abs x). pose proof (Rle_abs (- x)). rewrite Rabs_Ropp in *. lra. Qed.

Section Err.
Variable u : R.
Hypothesis hu : 0 <= u < 1.

Lemma base_pos n : 0 < (1 - u) ^ n.
Proof. apply pow_lt. lra. Qed.
Lemma base_le1 n : (1 - u) ^ n <= 1.
Proof. induction n as [|n IH]; cbn [pow]; [lra|]. pose proof (base_pos n). nra. Qed.
Lemma base_inv n : 1 <= / (1 - u) ^ n.
Proof. apply Rle_trans with (/ 1); [lra|]. apply Rinv_le_contravar; [apply base_pos|apply base_le1]. Qed.
Lemma within_0 x : within u 0 x x.
Proof. exists 1. cbn. split; lra. Qed.
Lemma factor_pos n f : (1 - u) ^ n <= f -> 0 < f.
Proof. pose proof (base_pos n). lra. Qed.
Lemma within_trans n m x y z : within u n x y -> within u m y z -> within u (n + m) x z.
Proof.
  intros (f & (f1 & f2) & ->) (g & (g1 & g2) & ->). exists (f * g). split; [|ring].
  pose proof (base_pos n). pose proof (base_pos m). rewrite pow_add, Rinv_mult. split.
  - apply Rmult_le_compat; lra.
  - pose proof (factor_pos _ _ f1). pose proof (factor_pos _ _ g1). apply Rmult_le_compat; lra.
Qed.
Lemma within_mono n m x y : (n <= m)%nat -> within u n x y -> within u m x y.
Proof.
  intros h (f & (f1 & f2) & ->). exists f. split; [|reflexivity].
  assert (e : (1 - u) ^ m <= (1 - u) ^ n).
  { replace m with (n + (m - n))%nat by lia. rewrite pow_add. pose proof (base_pos n). pose proof (base_le1 (m - n)). pose proof (base_pos (m - n)). nra. }
  split; [lra|]. pose proof (Rinv_le_contravar _ _ (base_pos m) e). lra.
Qed.
Lemma near_within x y : near1 u x y -> within u 1 x y.
Proof.
  unfold near1. intro h. destruct (Req_dec x 0) as [->|hx].
  - rewrite Rabs_R0, Rmult_0_r in h. assert (e : y - 0 = 0) by (pose proof (Rabs_pos (y - 0)); destruct (Req_dec (y - 0) 0) as [|k]; [assumption|apply Rabs_pos_lt in k; lra]).
    exists 1. cbn [pow]. rewrite Rmult_1_r. pose proof (base_inv 1) as b. cbn [pow] in b. rewrite Rmult_1_r in b. split; [lra|lra].
  - exists (y / x). cbn [pow]. rewrite Rmult_1_r.
    assert (e : Rabs (y / x - 1) <= u).
    { replace (y / x - 1) with ((y - x) / x) by (field; exact hx). unfold Rdiv. rewrite Rabs_mult, Rabs_inv.
      apply (Rmult_le_reg_r (Rabs x)); [apply Rabs_pos_lt, hx|]. rewrite Rmult_assoc, Rinv_l by (apply Rabs_no_R0, hx). lra. }
    apply Rabs_le_inv in e. split; [|field; exact hx]. split; [lra|].
    apply (Rmult_le_reg_r (1 - u)); [lra|]. rewrite Rinv_l by lra. nra.
Qed.
Lemma within_eq n x y : within u n x y -> (y = 0 <-> x = 0).
Proof.
  intros (f & (f1 & f2) & ->). pose proof (factor_pos _ _ f1). split; [|intros ->; ring].
  intro h. apply Rmult_integral in h. lra.
Qed.
Lemma within_sign n x y : within u n x y -> (0 < y <-> 0 < x).
Proof. intros (f & (f1 & f2) & ->). pose proof (factor_pos _ _ f1). split; intro; nra. Qed.
Lemma within_mul n m x y x' y' : within u n x y -> within u m x' y' -> within u (n + m) (x * x') (y * y').
Proof.
  intros (f & (f1 & f2) & ->) (g & (g1 & g2) & ->). exists (f * g). split; [|ring].
  pose proof (base_pos n). pose proof (base_pos m). rewrite pow_add, Rinv_mult.
  pose proof (factor_pos _ _ f1). pose proof (factor_pos _ _ g1). split; apply Rmult_le_compat; lra.
Qed.
Lemma within_inv n x y : x <> 0 -> within u n x y -> within u n (/ x) (/ y).
Proof.
  intros hx (f & (f1 & f2) & ->). pose proof (factor_pos _ _ f1). exists (/ f). split; [|rewrite Rinv_mult; reflexivity].
  split; [|apply Rinv_le_contravar; [apply base_pos|assumption]].
  rewrite <- (Rinv_inv ((1 - u) ^ n)). apply Rinv_le_contravar; assumption.
Qed.
Lemma within_div n m x y x' y' : x' <> 0 -> within u n x y -> within u m x' y' -> within u (n + m) (x / x') (y / y').
Proof. intros hx h h'. unfold Rdiv. apply within_mul; [assumption|apply within_inv; assumption]. Qed.
Lemma within_opp n x y : within u n x y -> within u n (- x) (- y).
Proof. intros (f & h & ->). exists f. split; [exact h|ring]. Qed.
Lemma within_add n x y x' y' : 0 < x -> 0 < x' -> within u n x y -> within u n x' y' -> within u n (x + x') (y + y').
Proof.
  intros hx hx' (f & (f1 & f2) & ->) (g & (g1 & g2) & ->). exists ((x * f + x' * g) / (x + x')). split; [|field; lra].
  split; apply (Rmult_le_reg_r (x + x')); try lra; unfold Rdiv; rewrite Rmult_assoc, Rinv_l by lra; nra.
Qed.

(** Powers. *)
Lemma Rpower_bounds n f r c : (1 - u) ^ n <= f <= / (1 - u) ^ n -> Rabs r <= INR c ->
  (1 - u) ^ (c * n) <= Rpower f r <= / (1 - u) ^ (c * n).
Proof.
  intros (f1 & f2) hr. pose proof (factor_pos _ _ f1) as fp. pose proof (base_pos n) as bp. pose proof (base_pos (c * n)) as bcn.
  assert (l1 : ln ((1 - u) ^ n) <= ln f) by (destruct f1 as [f1| ->]; [left; apply ln_increasing; assumption|right; reflexivity]).
  assert (l2 : ln f <= - ln ((1 - u) ^ n)).
  { rewrite <- ln_Rinv by assumption. destruct f2 as [f2| ->]; [left; apply ln_increasing; assumption|right; reflexivity]. }
  assert (l0 : ln ((1 - u) ^ n) <= 0) by lra.
  assert (e : ln ((1 - u) ^ (c * n)) = INR c * ln ((1 - u) ^ n)).
  { rewrite Nat.mul_comm, pow_mult. apply ln_pow, bp. }
  assert (b : INR c * ln ((1 - u) ^ n) <= r * ln f <= - (INR c * ln ((1 - u) ^ n))).
  { apply Rabs_le_inv in hr. destruct hr as (r1 & r2). set (L := ln ((1 - u) ^ n)) in *. set (F := ln f) in *. pose proof (pos_INR c).
    split; nra. }
  unfold Rpower. split.
  - rewrite <- (exp_ln ((1 - u) ^ (c * n))) by assumption. rewrite e. destruct (proj1 b) as [b1|b1]; [left; apply exp_increasing, b1|right; rewrite b1; reflexivity].
  - rewrite <- (exp_ln (/ (1 - u) ^ (c * n))) by (apply Rinv_0_lt_compat; assumption). rewrite ln_Rinv by assumption. rewrite e.
    destruct (proj2 b) as [b1|b1]; [left; apply exp_increasing, b1|right; rewrite b1; reflexivity].
Qed.
Lemma repeats_ge q : Rabs (QcR q) <= INR (repeats q).
Proof.
  unfold repeats, QcR. pose proof (Qle_ceiling (Qabs (this q))) as h. pose proof (Qabs_nonneg (this q)) as p.
  assert (z : (0 <= Qceiling (Qabs (this q)))%Z).
  { apply (Z.le_trans _ (Qceiling 0)); [reflexivity|]. apply Qceiling_resp_le, p. }
  rewrite INR_IZR_INZ, Z2Nat.id by exact z. apply Qle_Rle in h.
  assert (e : Q2R (inject_Z (Qceiling (Qabs (this q)))) = IZR (Qceiling (Qabs (this q)))) by (unfold Q2R; cbn; field).
  rewrite e in h. apply Rle_trans with (2 := h). destruct (Qlt_le_dec (this q) 0) as [n|n].
  - rewrite (Qeq_eqR _ _ (Qabs_neg (this q) (Qlt_le_weak _ _ n))), Q2R_opp. apply Qlt_Rlt in n. replace (Q2R 0) with 0 in n by (unfold Q2R; cbn; field).
    rewrite Rabs_left by exact n. lra.
  - rewrite (Qeq_eqR _ _ (Qabs_pos (this q) n)). apply Qle_Rle in n. replace (Q2R 0) with 0 in n by (unfold Q2R; cbn; field).
    rewrite Rabs_pos_eq by exact n. lra.
Qed.
Lemma within_Rpow n x y q : within u n x y ->
  match Rpowq x q, Rpowq y q with
  | Ok v, Ok w => within u (repeats q * n) v w
  | Raise e, Raise e' => e = e'
  | _, _ => False
  end.
Proof.
  intro h. pose proof (within_eq _ _ _ h) as h0. pose proof (within_sign _ _ _ h) as hs. unfold Rpowq.
  assert (z : Reqb y 0 = Reqb x 0).
  { destruct (Reqb x 0) eqn:e; [apply Reqb_true in e; apply Reqb_true; tauto|apply Reqb_false in e; apply Reqb_false; tauto]. }
  assert (s : Rltb 0 y = Rltb 0 x).
  { destruct (Rltb 0 x) eqn:e; [apply Rltb_true in e; apply Rltb_true; tauto|apply Rltb_false in e; apply Rltb_false; tauto]. }
  rewrite z, s. clear z s. destruct h as (f & hf & ->). pose proof (factor_pos _ _ (proj1 hf)) as fp.
  assert (one : forall v, within u (repeats q * n) v v) by (intro; apply (within_mono 0); [lia|apply within_0]).
  destruct (is_int q) eqn:i.
  - destruct (Reqb x 0) eqn:e.
    + apply Reqb_true in e. subst. destruct (true && Qcltb q (qc 0)); [reflexivity|]. rewrite Rmult_0_l. apply one.
    + cbn [andb]. apply Reqb_false in e. rewrite powerRZ_mult. exists (powerRZ f (Qnum (this q))). split; [|reflexivity].
      rewrite powerRZ_Rpower by exact fp. apply Rpower_bounds; [exact hf|].
      replace (IZR (Qnum (this q))) with (QcR q); [apply repeats_ge|]. unfold is_int in i. apply Pos.eqb_eq in i. unfold QcR, Q2R. rewrite i. field.
  - destruct (Rltb 0 x) eqn:l.
    + apply Rltb_true in l. rewrite <- Rpower_mult_distr by assumption. eexists. split; [|reflexivity].
      apply Rpower_bounds; [exact hf|apply repeats_ge].
    + destruct (Reqb x 0); [|reflexivity]. destruct (Qcltb q (qc 0)); [reflexivity|]. apply one.
Qed.

(** ** The model *)
Variable a : arith.
Hypothesis ha : accurate u a.
Definition close (x y : R) (n : nat) : Prop := within u n x y.
Definition pclose (x y : R) (n : nat) : Prop := 0 < x /\ within u n x y.
Lemma c_lit q : close (@nq R Rnum q) (@nq R (Fnum a) q) (@nq nat Cnum q).
Proof.
  destruct ha as (_ & _ & _ & _ & l & z & _). unfold close. cbn [nq Rnum Fnum Cnum]. destruct (whole q) eqn:w; [|apply near_within, l].
  unfold whole in w. apply andb_prop in w. destruct w as (w1 & w2). apply Pos.eqb_eq in w1. apply Z.leb_le in w2.
  destruct q as [n d]. cbn in w1, w2. subst d. change (n # 1)%Q with (inject_Z n). rewrite (z n w2).
  replace (Q2R (inject_Z n)) with (IZR n) by (unfold Q2R; cbn; field). apply within_0.
Qed.
Lemma c_mul x y z x' y' z' : close x y z -> close x' y' z' -> close (@nmul R Rnum x x') (@nmul R (Fnum a) y y') (@nmul nat Cnum z z').
Proof.
  intros h h'. unfold close in *. cbn [nmul Rnum Fnum Cnum]. replace (S (z + z')) with (z + z' + 1)%nat by lia.
  apply (within_trans _ _ _ (y * y')); [apply within_mul; assumption|]. apply near_within. destruct ha as (_ & _ & m & _). apply m.
Qed.
Lemma c_ndiv x y z x' y' z' : x' <> 0 -> close x y z -> close x' y' z' -> close (@ndiv R Rnum x x') (@ndiv R (Fnum a) y y') (@ndiv nat Cnum z z').
Proof.
  intros hx h h'. unfold close in *. cbn [ndiv Rnum Fnum Cnum]. replace (S (z + z')) with (z + z' + 1)%nat by lia.
  apply (within_trans _ _ _ (y / y')); [apply within_div; assumption|]. apply near_within. destruct ha as (_ & _ & _ & d & _). apply d.
  intro e. apply hx. apply (within_eq _ _ _ h'). exact e.
Qed.
Lemma lit_0 : a_lit a 0 = 0.
Proof. destruct ha as (_ & _ & _ & _ & _ & z & _). apply (z 0%Z). cbn. lia. Qed.
Lemma q2r_0 : Q2R 0 = 0.
Proof. unfold Q2R. cbn. field. Qed.
Lemma c_div x y z x' y' z' : close x y z -> close x' y' z' ->
  rr false close (@pydiv R Rnum x x') (@pydiv R (Fnum a) y y') (@pydiv nat Cnum z z').
Proof.
  intros h h'. pose proof (within_eq _ _ _ h') as e. unfold pydiv. cbn [neqb nq Rnum Fnum Cnum]. rewrite lit_0, q2r_0.
  destruct (Reqb x' 0) eqn:k.
  - apply Reqb_true in k. rewrite (proj2 (Reqb_true y' 0)) by tauto. apply rr_raise.
  - apply Reqb_false in k. rewrite (proj2 (Reqb_false y' 0)) by tauto. apply rr_ok, c_ndiv; assumption.
Qed.
Lemma c_pow q x y z : close x y z -> rr false close (@npow R Rnum x q) (@npow R (Fnum a) y q) (@npow nat Cnum z q).
Proof.
  intro h. cbn [npow Rnum Fnum Cnum]. pose proof (within_Rpow _ _ _ q h) as k. destruct ha as (_ & _ & _ & _ & _ & _ & p). specialize (p y q).
  destruct (Rpowq x q) as [v|e], (Rpowq y q) as [w|e']; try contradiction.
  - destruct p as (w' & -> & p). apply rr_ok. unfold close. replace (S (repeats q * z)) with (repeats q * z + 1)%nat by lia.
    apply (within_trans _ _ _ w); [exact k|apply near_within, p].
  - subst. rewrite p. apply rr_raise.
Qed.
Lemma c_opp x y z : close x y z -> close (@nopp R Rnum x) (@nopp R (Fnum a) y) (@nopp nat Cnum z).
Proof. apply within_opp. Qed.
Lemma p_lit q : (0 < q)%Q -> pclose (@nq R Rnum q) (@nq R (Fnum a) q) (@nq nat Cnum q).
Proof. intro h. split; [|apply c_lit]. cbn. apply Qlt_Rlt in h. rewrite q2r_0 in h. exact h. Qed.
Lemma p_mul x y z x' y' z' : pclose x y z -> pclose x' y' z' -> pclose (@nmul R Rnum x x') (@nmul R (Fnum a) y y') (@nmul nat Cnum z z').
Proof. intros (p & h) (p' & h'). split; [cbn; apply Rmult_lt_0_compat; assumption|apply c_mul; assumption]. Qed.
Lemma p_div x y z x' y' z' : pclose x y z -> pclose x' y' z' ->
  rr false pclose (@pydiv R Rnum x x') (@pydiv R (Fnum a) y y') (@pydiv nat Cnum z z').
Proof.
  intros (p & h) (p' & h'). pose proof (c_div _ _ _ _ _ _ h h') as k. unfold pydiv in *. cbn [neqb nq ndiv Rnum Fnum Cnum] in *.
  rewrite lit_0, q2r_0 in *. rewrite (proj2 (Reqb_false x' 0)) in * by lra.
  destruct (Reqb y' 0); apply rr_tight in k; [contradiction|]. destruct k as (z0 & e & k). rewrite e. apply rr_ok. split; [|exact k].
  apply Rdiv_lt_0_compat; assumption.
Qed.
Lemma p_pow q x y z : pclose x y z -> rr false pclose (@npow R Rnum x q) (@npow R (Fnum a) y q) (@npow nat Cnum z q).
Proof.
  intros (p & h). pose proof (c_pow q _ _ _ h) as k. cbn [npow Rnum] in *.
  assert (e : forall v, Rpowq x q = Ok v -> 0 < v).
  { intros v. rewrite Rpowq_pos by exact p. intro e. injection e as <-. apply exp_pos. }
  destruct k as [v w z0 k|er c|? ? er hl]; [apply rr_ok; split; [apply e; reflexivity|exact k]|apply rr_raise|discriminate].
Qed.
Lemma p_add x y z x' y' z' : pclose x y z -> pclose x' y' z' -> pclose (@nadd R Rnum x x') (@nadd R (Fnum a) y y') (@nadd nat Cnum z z').
Proof.
  intros (p & h) (p' & h'). split; [cbn; lra|]. cbn [nadd Rnum Fnum Cnum]. replace (S (Nat.max z z')) with (Nat.max z z' + 1)%nat by lia.
  apply (within_trans _ _ _ (y + y')); [|apply near_within; destruct ha as (s & _); apply s].
  apply within_add; try assumption; [apply (within_mono z)|apply (within_mono z')]; try assumption; lia.
Qed.
Lemma prefix_pos p q : dict_get prefix_factors p = Some q -> (0 < q)%Q.
Proof.
  assert (k : forall l, (forall b, In b l -> (0 < snd b)%Q) -> dict_get l p = Some q -> (0 < q)%Q).
  { induction l as [|[m d] l IH]; intros hl hd; [discriminate|]. cbn [dict_get] in hd. destruct (dict_get l p) as [t|] eqn:el.
    - injection hd as ->. apply IH; [intros b hb; apply hl; right; exact hb|reflexivity].
    - destruct (String.eqb m p); [|discriminate]. injection hd as ->. apply (hl (m, q)). left. reflexivity. }
  apply k. intros b hb. cbn in hb. repeat (destruct hb as [<-|hb]; [reflexivity|]). contradiction.
Qed.

Lemma fresh_close v : relv close v v (fresh v).
Proof. destruct v as [x| | |w|m]; cbn; try exact I; try apply within_0; repeat (split; [reflexivity|]); apply within_0. Qed.
Lemma fresh_pclose v : positive v -> relv pclose v v (fresh v).
Proof. intro h. destruct v as [x| | |w|m]; cbn in *; try exact I; try (split; [exact h|apply within_0]); repeat (split; [reflexivity|]); (split; [exact h|apply within_0]). Qed.
Lemma run_close e : no_sums e -> rr false (relv close) (eval e) (feval a e) (@geval nat Cnum fresh e).
Proof.
  unfold feval. induction e as [v|e IHe f IHf|e IHe f IHf|e IHe f IHf|e IHe f IHf|e IHe k|e IHe]; cbn [no_sums eval geval]; intro h; try contradiction.
  - apply rr_ok, fresh_close.
  - destruct h as (h & h'). eapply rr_bind; [apply IHe, h|]. intros x y z hx. eapply rr_bind; [apply IHf, h'|]. intros x' y' z' hx'.
    apply (rr_mul false close (fun _ => True)); auto using c_lit, c_mul, c_div, c_pow.
  - destruct h as (h & h'). eapply rr_bind; [apply IHe, h|]. intros x y z hx. eapply rr_bind; [apply IHf, h'|]. intros x' y' z' hx'.
    apply (rr_divide false close (fun _ => True)); auto using c_lit, c_mul, c_div, c_pow.
  - eapply rr_bind; [apply IHe, h|]. intros x y z hx. apply (rr_power false close); auto using c_pow.
  - eapply rr_bind; [apply IHe, h|]. intros x y z hx. apply (rr_neg false close); auto using c_opp.
Qed.
Lemma run_pclose e : only_positive e -> rr false (relv pclose) (eval e) (feval a e) (@geval nat Cnum fresh e).
Proof.
  unfold feval. induction e as [v|e IHe f IHf|e IHe f IHf|e IHe f IHf|e IHe f IHf|e IHe k|e IHe]; cbn [only_positive eval geval]; intro h; try contradiction.
  - apply rr_ok, fresh_pclose, h.
  - destruct h as (h & h'). eapply rr_bind; [apply IHe, h|]. intros x y z hx. eapply rr_bind; [apply IHf, h'|]. intros x' y' z' hx'.
    apply (rr_mul false pclose (fun q => (0 < q)%Q)); auto using p_lit, p_mul, p_div, p_pow; [reflexivity|exact prefix_pos].
  - destruct h as (h & h'). eapply rr_bind; [apply IHe, h|]. intros x y z hx. eapply rr_bind; [apply IHf, h'|]. intros x' y' z' hx'.
    apply (rr_divide false pclose (fun q => (0 < q)%Q)); auto using p_lit, p_mul, p_div, p_pow; [reflexivity|exact prefix_pos].
  - destruct h as (h & h'). eapply rr_bind; [apply IHe, h|]. intros x y z hx. eapply rr_bind; [apply IHf, h'|]. intros x' y' z' hx'.
    apply (rr_add false pclose); auto using p_add.
  - eapply rr_bind; [apply IHe, h|]. intros x y z hx. apply (rr_power false pclose); auto using p_pow.
Qed.

(** ** Tables *)
Inductive relist : table R -> table R -> table nat -> Prop :=
| RLnil : relist nil nil nil
| RLcons n f g k l l' l'' : relc false close f g k -> relist l l' l'' -> relist ((n, f) :: l) ((n, g) :: l') ((n, k) :: l'').
Lemma relist_get n l l' l'' : relist l l' l'' ->
  match dict_get l n, dict_get l' n, dict_get l'' n with
  | Some f, Some g, Some k => relc false close f g k
  | None, None, None => True
  | _, _, _ => False
  end.
Proof.
  induction 1 as [|m f g k l l' l'' h hl IH]; cbn [dict_get]; [exact I|].
  destruct (dict_get l n), (dict_get l' n), (dict_get l'' n); try contradiction; [exact IH|].
  destruct (String.eqb m n); [exact h|exact I].
Qed.
Lemma relist_tab l l' l'' : relist l l' l'' -> relt false close (Some l) (Some l') (Some l'').
Proof.
  intros h n. pose proof (relist_get n _ _ _ h) as k. cbn [tab_get].
  destruct (dict_get l n), (dict_get l' n), (dict_get l'' n); try contradiction; [apply rr_ok, k|apply rr_raise].
Qed.
Lemma c_times q : relc false close (@times R Rnum q) (@times R (Fnum a) q) (@times nat Cnum q).
Proof. intros x y z h. unfold times. apply rr_ok, c_mul; [exact h|apply c_lit]. Qed.
Lemma c_overq q : (0 < q)%Q -> forall x y z, close x y z -> close (@ndiv R Rnum x (@nq R Rnum q)) (@ndiv R (Fnum a) y (@nq R (Fnum a) q)) (@ndiv nat Cnum z (@nq nat Cnum q)).
Proof. intros hq x y z h. apply c_ndiv; [|exact h|apply c_lit]. apply Qlt_Rlt in hq. rewrite q2r_0 in hq. cbn. lra. Qed.
Lemma c_over q : (0 < q)%Q -> relc false close (@over R Rnum q) (@over R (Fnum a) q) (@over nat Cnum q).
Proof. intros hq x y z h. unfold over. apply rr_ok, c_overq; assumption. Qed.
Ltac entry := first
  [ apply c_times
  | apply c_over; reflexivity
  | intros ? ? ? ?; apply rr_raise
  | intros ? ? ? ?; apply rr_ok; assumption
  | intros ? ? ? ?; apply rr_ok, c_mul; [apply c_overq; [reflexivity|assumption]|apply c_lit]
  | intros ? ? ? ?; apply rr_ok, c_mul; [apply c_mul; [assumption|apply c_lit]|apply c_lit]
  | idtac ].
Lemma sqrt_lit_pos q v : (0 < q)%Q -> @npow R Rnum (@nq R Rnum q) (Q2Qc (1 # 2)) = Ok v -> v <> 0.
Proof.
  intros hq. cbn [npow nq Rnum]. apply Qlt_Rlt in hq. rewrite q2r_0 in hq. rewrite Rpowq_pos by exact hq. intro h. injection h as <-.
  apply Rgt_not_eq, exp_pos.
Qed.
Lemma tables_to c : c <> Temperature -> relt false close (to_standard (@tables0 R Rnum) c) (to_standard (@tables0 R (Fnum a)) c) (to_standard (@tables0 nat Cnum) c).
Proof.
  intro h. destruct c; try congruence; cbn [to_standard tables0 to_standard0]; try (intro n; apply rr_raise);
    (apply relist_tab; repeat (apply RLcons; [entry|]); try apply RLnil).
  intros x y z hx. apply (rr_bind close); [apply c_pow, c_lit|]. intros. apply rr_ok, c_mul; assumption.
Qed.
Lemma tables_from c : c <> Temperature -> relt false close (from_standard (@tables0 R Rnum) c) (from_standard (@tables0 R (Fnum a)) c) (from_standard (@tables0 nat Cnum) c).
Proof.
  intro h. destruct c; try congruence; cbn [from_standard tables0 from_standard0]; try (intro n; apply rr_raise);
    (apply relist_tab; repeat (apply RLcons; [entry|]); try apply RLnil).
  intros x y z hx.
  assert (k : rr false close (@npow R Rnum (@nq R Rnum (4046873 # 1000)) (Q2Qc (1 # 2))) (@npow R (Fnum a) (@nq R (Fnum a) (4046873 # 1000)) (Q2Qc (1 # 2)))
                (@npow nat Cnum (@nq nat Cnum (4046873 # 1000)) (Q2Qc (1 # 2)))) by apply c_pow, c_lit.
  pose proof (sqrt_lit_pos (4046873 # 1000)) as nz.
  destruct k as [v w n k|er c|? ? er hl]; [|apply rr_raise|discriminate].
  cbn [bind]. apply rr_ok, c_ndiv; [apply nz; reflexivity|assumption|exact k].
Qed.
Lemma run_convert m target :
  rr false (relm close) (multi_convert_to tables0 m target) (fconvert a m target)
     (@multi_convert_to nat Cnum (@tables0 nat Cnum) (MO (mc m) O (mtop m) (mbot m)) target).
Proof.
  unfold fconvert. apply (rr_convert false close (fun _ => True)); auto using c_lit, c_mul, c_div, c_pow, tables_to, tables_from.
  repeat (split; [reflexivity|]). apply within_0.
Qed.
Lemma run_convert_unit w target : uc w <> Temperature ->
  rr false (relu close) (unit_convert_to tables0 w target) (fconvert_unit a w target)
     (@unit_convert_to nat Cnum (@tables0 nat Cnum) (UO (uc w) O (un w) (ue w)) target).
Proof.
  intro h. unfold fconvert_unit. apply (rr_unit_convert false close); auto using c_pow, tables_to, tables_from.
  repeat (split; [reflexivity|]). apply within_0.
Qed.
End Err.
