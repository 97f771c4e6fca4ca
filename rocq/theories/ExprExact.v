(** * ExprExact: what every expression evaluates to *)
From Coq Require Import String Ascii List ZArith QArith Qcanon Bool Reals Qreals Lia Lra.
From Verif Require Import Py Num UnitsData UnitsStruct Units NumFacts Spec SpecFacts StructFacts CombineFacts CancelFacts
  ExpandFacts PrefixFacts SimplifyFacts OpFacts NamesFacts ClosureFacts FactorFacts LawFacts WitnessFacts PropFacts OpPropFacts OpExactFacts Expr ExprFacts ExprSpec.
Import ListNotations.
Local Open Scope string_scope.
Local Open Scope list_scope.
Local Open Scope R_scope.

Lemma dropped_pos w u : 0 < dropped w u. Proof. apply exp_pos. Qed.
Lemma lost_mul_pos w a b : 0 < lost_mul w a b.
Proof.
  assert (h : forall u m, 0 < mscale m * uscale u) by (intros; apply Rmult_lt_0_compat; [apply msize_pos|apply exp_pos]).
  assert (h' : forall u v, 0 < dropped w u * dropped w v) by (intros; apply Rmult_lt_0_compat; apply dropped_pos).
  destruct a, b; cbn; try lra; try apply dropped_pos; auto. destruct (_ && _); [lra|auto].
Qed.
Lemma lost_div_pos a b : 0 < lost_div a b.
Proof. destruct a, b; cbn; try lra. apply Rdiv_lt_0_compat; [apply exp_pos|apply msize_pos]. Qed.

(** ** One operator *)
Lemma mul_gives w a b x y r : coherent w -> good a -> good b -> qty w a = Some x -> qty w b = Some y -> py_mul a b = Ok r ->
  qty w r = Some (x * y / lost_mul w a b).
Proof.
  intros hw g1 g2 ha hb h. pose proof (co_pos _ hw) as pw.
  destruct a as [p| | |u|m]; cbn in g1; try contradiction; destruct b as [p'| | |u'|m']; cbn in g2; try contradiction; cbn [lost_mul].
  - cbn in *. injection h as <-. injection ha as <-. injection hb as <-. cbn. f_equal. field.
  - destruct (scale_u_lost u' p (proj2 g2)) as [r' [_ [e [_ [q _]]]]]. rewrite h in e. injection e as <-. rewrite (q w y pw hb). cbn in ha. injection ha as <-.
    f_equal. unfold dropped. field. apply Rgt_not_eq, exp_pos.
  - destruct (scale_partial (VMulti m') p) as [r' [_ [e [_ q]]]]; [exact I|discriminate|].
    rewrite h in e. injection e as <-. rewrite (q w y hb). cbn in ha. injection ha as <-. f_equal. field.
  - destruct (scale_u_lost u p' (proj2 g1)) as [r' [e [_ [_ [q _]]]]]. rewrite h in e. injection e as <-. rewrite (q w x pw ha). cbn in hb. injection hb as <-. reflexivity.
  - destruct (ucls_eqb (uc u) (uc u') && String.eqb (un u) (un u')) eqn:s.
    + apply andb_true_iff in s. destruct s as [s1 s2]. apply ucls_eqb_eq in s1. apply String.eqb_eq in s2.
      destruct (mul_uu u u' (proj2 g1) (or_introl (conj s1 s2))) as [r' [e q]]. rewrite h in e. injection e as <-. rewrite (q w x y pw ha hb). f_equal. field.
    + assert (n : ~ (uc u = uc u' /\ un u = un u')).
      { intros [e1 e2]. rewrite (proj2 (ucls_eqb_eq _ _) e1), (proj2 (String.eqb_eq _ _) e2) in s. discriminate. }
      destruct (mul_uu_lost u u' n) as [r' [e q]]. rewrite h in e. injection e as <-. apply q; assumption.
  - destruct (mul_mu_exact m' u g2 (proj1 g1)) as [r' [_ [e q]]]. rewrite h in e. injection e as <-. rewrite (q w y x hw hb ha). f_equal.
    unfold mscale, uscale. f_equal. ring.
  - destruct (scale_partial (VMulti m) p') as [r' [e [_ [_ q]]]]; [exact I|discriminate|].
    rewrite h in e. injection e as <-. rewrite (q w x ha). cbn in hb. injection hb as <-. f_equal. field.
  - destruct (mul_mu_exact m u' g1 (proj1 g2)) as [r' [e [_ q]]]. rewrite h in e. injection e as <-. exact (q w x y hw ha hb).
  - destruct (mul_mm m m' g1 g2) as [r' [e [_ q]]]. rewrite h in e. injection e as ->. rewrite (q w x y) by assumption. f_equal. field.
Qed.
Lemma div_gives w a b x y r : coherent w -> good a -> good b -> qty w a = Some x -> qty w b = Some y -> y <> 0 -> py_div a b = Ok r ->
  qty w r = Some (x / y / lost_div a b).
Proof.
  intros hw g1 g2 ha hb ny h. pose proof (co_pos _ hw) as pw.
  assert (nz : value b <> 0).
  { destruct (qty_value w b y pw g2 hb) as [s [hs e]]. intro k. rewrite k in e. apply ny. rewrite e. ring. }
  destruct a as [p| | |u|m]; cbn in g1; try contradiction; destruct b as [p'| | |u'|m']; cbn in g2; try contradiction; cbn [lost_div value] in *.
  - cbn [py_div] in h. rewrite pydiv_ok in h by assumption. cbn in *. injection h as <-. injection ha as <-. injection hb as <-. cbn. f_equal. field. assumption.
  - discriminate.
  - destruct (rdiv_num m' p nz) as [r' [e q]]. rewrite h in e. injection e as <-. rewrite (q w y pw hb). cbn in ha. injection ha as <-. f_equal. field. assumption.
  - destruct (proj1 (scale_div (VUnit u) p' (proj2 g1)) nz) as [r' [e [_ q]]]. rewrite h in e. injection e as <-. rewrite (q w x ha). cbn in hb. injection hb as <-. f_equal. field. assumption.
  - destruct (div_uu u u' (proj2 g1) nz) as [r' [e q]]. rewrite h in e. injection e as <-. rewrite (q w x y) by assumption. f_equal. field. assumption.
  - destruct (div_um_exact m' u g2 (proj1 g1) nz) as [r' [e q]]. rewrite h in e. injection e as <-. exact (q w x y hw ha hb).
  - destruct (proj1 (scale_div (VMulti m) p' I) nz) as [r' [e [_ q]]]. rewrite h in e. injection e as <-. rewrite (q w x ha). cbn in hb. injection hb as <-. f_equal. field. assumption.
  - destruct (div_mu m u' g1 (proj1 g2) nz) as [r' [e q]]. rewrite h in e. injection e as <-. rewrite (q w x y) by assumption. f_equal. field. assumption.
  - destruct (div_mm m m' g1 g2 nz) as [r' [e q]]. rewrite h in e. injection e as <-. rewrite (q w x y) by assumption. f_equal. field. assumption.
Qed.
Lemma qty_shape (u : unit_obj R) n : shape (VUnit u) = ([(n, qc 1)], nil) -> un u = n /\ ev (ue u) = qc 1.
Proof. cbn. intro h. injection h as h1 h2. split; [exact h1|]. apply Qc_is_canon. cbn in *. rewrite h2. reflexivity. Qed.
Lemma addsub_gives w a b x y r : coherent w -> good a -> good b -> qty w a = Some x -> qty w b = Some y ->
  (py_add a b = Ok r -> qty w r = Some (added w a b x y)) /\ (py_sub a b = Ok r -> qty w r = Some (added w a b x (- y))).
Proof.
  intros hw g1 g2 ha hb. pose proof (co_pos _ hw) as pw.
  destruct (good_quantity a g1) as [[p ->]|q1].
  { destruct b as [p'| | |u'|m']; cbn in g2; try contradiction; (split; intro h; try discriminate h); cbn in *; injection h as <-; injection ha as <-; injection hb as <-; cbn; f_equal; ring. }
  destruct (good_quantity b g2) as [[p ->]|q2].
  { destruct a as [p'| | |u'|m']; cbn in g1, q1; try contradiction; [|split; intro h; discriminate h].
    destruct (add_num_exact u' p (proj2 g1)) as [s [t [es [et [_ [_ [vs [vt [ss [st _]]]]]]]]]]. cbn in ha, hb. injection ha as <-. injection hb as <-.
    destruct (qty_shape _ _ ss) as [n1 e1]. destruct (qty_shape _ _ st) as [n2 e2].
    assert (k : forall z, uv u' * Rpower (w (un u')) (QcR (ev (ue u'))) / dropped w u' + z * w (un u') = (uv u' + z) * w (un u')).
    { intro z. unfold dropped. rewrite (minus_power (w (un u')) (QcR (ev (ue u')))) by apply pw. pose proof (exp_pos ((QcR (ev (ue u')) - 1) * ln (w (un u')))). unfold Rpower. field. lra. }
    cbn [added]. rewrite !k. split; intro h; [rewrite h in es; injection es as ->; cbn [qty]; rewrite vs, n1, e1|rewrite h in et; injection et as ->; cbn [qty]; rewrite vt, n2, e2];
      f_equal; rewrite QcR_qc; rewrite Rpower_1 by apply pw; ring. }
  assert (e : forall z, added w a b x z = x + z) by (intro z; destruct a, b; try reflexivity; cbn in q2; contradiction).
  rewrite !e. destruct (addsub_sound a b q1 q2) as [k1 k2]. split; intro h.
  - destruct k1 as [k|[r' [k [_ [_ q]]]]]; [congruence|]. rewrite h in k. injection k as <-. apply q; assumption.
  - destruct k2 as [k|[r' [k [_ [_ q]]]]]; [congruence|]. rewrite h in k. injection k as <-. rewrite (q w x y) by assumption. f_equal.
Qed.
Lemma qty_zero w v x : positive w -> good v -> qty w v = Some x -> (x = 0 <-> value v = 0).
Proof. intros hw g h. destruct (qty_value w v x hw g h) as [s [hs ->]]. split; intro k; [apply Rmult_integral in k; lra|rewrite k; ring]. Qed.
Lemma good_qty w v : good v -> exists x, qty w v = Some x.
Proof. destruct v; cbn; try contradiction; intro; eexists; reflexivity. Qed.
Lemma QcR_lt0 q : Qcltb q (qc 0) = false -> is_int q = false -> 0 < QcR q.
Proof.
  intros h i. apply Qcltb_ge in h. rewrite QcR_qc in h. destruct h as [l|l]; [exact l|]. exfalso. assert (e : q = qc 0) by (apply QcR_inj; rewrite QcR_qc; symmetry; exact l).
  subst q. discriminate i.
Qed.
Lemma int_form k : is_int (ev k) = true -> exists t z, k = Ex t (qc z).
Proof.
  intro h. exists (isf k), (Qnum (ev k)). destruct k as [t q]. cbn [isf ev] in *. f_equal. apply Qc_is_canon. unfold is_int in h. apply Pos.eqb_eq in h.
  unfold qc. destruct q as [[n d] c]. cbn in h. subst d. cbn [this Qnum Qden]. symmetry. apply Qred_correct.
Qed.

(** ** Expressions *)
Theorem expr_gives w e x r : coherent w -> (forall v, In v (leaves e) -> good v) -> gives w e x -> eval e = Ok r -> qty w r = Some x.
Proof.
  intros hw hl hd. revert r hl. pose proof (co_pos _ hw) as pw.
  induction hd as [v x q|a b x y p q da IHa db IHb ea eb|a b x y p q da IHa db IHb ny ea eb|a b x y p q da IHa db IHb ea eb|a b x y p q da IHa db IHb ea eb|a k x da IHa px|a t z x da IHa px|a k da IHa px|a x da IHa];
    cbn [leaves eval]; intros r hl h.
  - injection h as <-. exact q.
  - assert (ga : forall v, In v (leaves a) -> good v) by (intros; apply hl, in_or_app; auto).
    assert (gb : forall v, In v (leaves b) -> good v) by (intros; apply hl, in_or_app; auto).
    rewrite ea, eb in h. cbn [bind] in h. exact (mul_gives w p q x y r hw (expr_good _ _ ga ea) (expr_good _ _ gb eb) (IHa _ ga ea) (IHb _ gb eb) h).
  - assert (ga : forall v, In v (leaves a) -> good v) by (intros; apply hl, in_or_app; auto).
    assert (gb : forall v, In v (leaves b) -> good v) by (intros; apply hl, in_or_app; auto).
    rewrite ea, eb in h. cbn [bind] in h. exact (div_gives w p q x y r hw (expr_good _ _ ga ea) (expr_good _ _ gb eb) (IHa _ ga ea) (IHb _ gb eb) ny h).
  - assert (ga : forall v, In v (leaves a) -> good v) by (intros; apply hl, in_or_app; auto).
    assert (gb : forall v, In v (leaves b) -> good v) by (intros; apply hl, in_or_app; auto).
    rewrite ea, eb in h. cbn [bind] in h. apply (proj1 (addsub_gives w p q x y r hw (expr_good _ _ ga ea) (expr_good _ _ gb eb) (IHa _ ga ea) (IHb _ gb eb))). exact h.
  - assert (ga : forall v, In v (leaves a) -> good v) by (intros; apply hl, in_or_app; auto).
    assert (gb : forall v, In v (leaves b) -> good v) by (intros; apply hl, in_or_app; auto).
    rewrite ea, eb in h. cbn [bind] in h. apply (proj2 (addsub_gives w p q x y r hw (expr_good _ _ ga ea) (expr_good _ _ gb eb) (IHa _ ga ea) (IHb _ gb eb))). exact h.
  - apply bind_ok in h. destruct h as [va [ea h]]. specialize (IHa va hl ea). pose proof (expr_good _ _ hl ea) as g.
    assert (pv : 0 < value va).
    { destruct (qty_value w va x pw g IHa) as [s [hs e]]. subst x. destruct (Rle_or_lt (value va) 0) as [n|n]; [|exact n].
      exfalso. assert (value va * s <= 0) by (replace 0 with (0 * s) by ring; apply Rmult_le_compat_r; lra). lra. }
    destruct (good_quantity va g) as [[p ->]|q1].
    { cbn [py_pow npow Rnum] in h. cbn in pv, IHa. rewrite Rpowq_pos in h by assumption. injection h as <-. injection IHa as <-. reflexivity. }
    destruct (pow_all va k q1) as [r' [e q]]; [destruct va; cbn in *; try contradiction; assumption|].
    rewrite h in e. injection e as <-. apply q; assumption.
  - apply bind_ok in h. destruct h as [va [ea h]]. specialize (IHa va hl ea). pose proof (expr_good _ _ hl ea) as g.
    assert (pv : value va <> 0 \/ (0 <= z)%Z).
    { destruct px as [px|px]; [left|auto]. intro k. apply px. apply (qty_zero w va x pw g IHa). exact k. }
    destruct (good_quantity va g) as [[p ->]|q1].
    { cbn [py_pow npow Rnum] in h. cbn in pv, IHa. cbn [ev] in h. rewrite Rpowq_int in h by assumption. injection h as <-. injection IHa as <-. reflexivity. }
    destruct (pow_int_all va t z q1) as [r' [e q]]; [destruct va; cbn in *; try contradiction; assumption|].
    rewrite h in e. injection e as <-. apply q; assumption.
  - apply bind_ok in h. destruct h as [va [ea h]]. specialize (IHa va hl ea). pose proof (expr_good _ _ hl ea) as g.
    assert (z : value va = 0) by (apply (qty_zero w va 0 pw g IHa); reflexivity).
    assert (pz : forall v, Rpowq 0 (ev k) = Ok v -> v = 0).
    { intros v hv. destruct (is_int (ev k)) eqn:i.
      - destruct (int_form k i) as [t [zz ->]]. cbn [ev] in *. assert (0 < zz)%Z by (rewrite QcR_qc in px; apply lt_IZR; exact px).
        rewrite Rpowq_int in hv by (right; lia). injection hv as <-. destruct zz; try lia. cbn. apply pow_i. lia.
      - unfold Rpowq in hv. rewrite i in hv. revert hv. intro hv.
        destruct (Rltb 0 0) eqn:l; [apply Rltb_true in l; lra|]. destruct (Reqb 0 0); [|discriminate]. destruct (Qcltb _ _); [discriminate|]. injection hv as <-. reflexivity. }
    assert (gr : good r) by (eapply good_pow; [exact g|exact h]). destruct (good_qty w r gr) as [y ey]. rewrite ey. f_equal. apply (qty_zero w r y pw gr ey).
    destruct va as [v| | |u|m]; cbn in g; try contradiction; cbn [py_pow value] in *.
    + cbn [npow Rnum] in h. rewrite z in h. destruct (Rpowq 0 (ev k)) eqn:p; cbn in h; [|discriminate]. injection h as <-. cbn. auto.
    + unfold unit_pow in h. cbn [npow Rnum] in h. rewrite z in h. destruct (Rpowq 0 (ev k)) eqn:p; cbn [bind] in h; [|discriminate].
      unfold vunit in h. rewrite (rebuild u _ _ (proj2 g)) in h. cbn in h. injection h as <-. cbn. auto.
    + unfold multi_pow in h. destruct (reduce_tail true true (scale_half k (mtop m)) (scale_half k (mbot m))) as [[t b]|]; [|discriminate h].
      cbn [bind npow Rnum] in h. rewrite z in h. destruct (Rpowq 0 (ev k)) eqn:p; cbn [bind] in h; [|discriminate]. injection h as <-. cbn. auto.
  - apply bind_ok in h. destruct h as [va [ea h]]. specialize (IHa va hl ea). pose proof (expr_good _ _ hl ea) as g.
    destruct (good_quantity va g) as [[p ->]|q1].
    { cbn in *. injection h as <-. injection IHa as <-. reflexivity. }
    destruct (neg_all va q1) as [r' [e [_ [_ q]]]]. rewrite h in e. injection e as <-. apply q; assumption.
Qed.

(** Every evaluation has such a quantity. *)
Theorem gives_total w e r : coherent w -> (forall v, In v (leaves e) -> good v) -> eval e = Ok r -> exists x, gives w e x.
Proof.
  intros hw. pose proof (co_pos _ hw) as pw. revert r. induction e as [v|a IHa b IHb|a IHa b IHb|a IHa b IHb|a IHa b IHb|a IHa k|a IHa]; cbn [leaves eval]; intros r hl h.
  - destruct (good_qty w v (hl v (or_introl eq_refl))) as [x e]. exists x. constructor. exact e.
  - assert (ga : forall v, In v (leaves a) -> good v) by (intros; apply hl, in_or_app; auto).
    assert (gb : forall v, In v (leaves b) -> good v) by (intros; apply hl, in_or_app; auto).
    apply bind_ok in h. destruct h as [va [ea h]]. apply bind_ok in h. destruct h as [vb [eb h]].
    destruct (IHa _ ga ea) as [x gx]. destruct (IHb _ gb eb) as [y gy]. eexists. econstructor; eassumption.
  - assert (ga : forall v, In v (leaves a) -> good v) by (intros; apply hl, in_or_app; auto).
    assert (gb : forall v, In v (leaves b) -> good v) by (intros; apply hl, in_or_app; auto).
    apply bind_ok in h. destruct h as [va [ea h]]. apply bind_ok in h. destruct h as [vb [eb h]].
    destruct (IHa _ ga ea) as [x gx]. destruct (IHb _ gb eb) as [y gy]. eexists. econstructor; try eassumption.
    pose proof (expr_gives w b y vb hw gb gy eb) as q. pose proof (expr_good _ _ gb eb) as g. pose proof (expr_good _ _ ga ea) as g'. rewrite (qty_zero w vb y pw g q). intro z.
    destruct (div_total va vb g' g) as [h1 [_ h3]].
    assert (d : (exists x u, va = VNum x /\ vb = VUnit u) \/ ((forall x, va <> VNum x) \/ (forall u, vb <> VUnit u))).
    { clear. destruct va; try (right; left; intros ? k; discriminate k). destruct vb; try (right; right; intros ? k; discriminate k). left. eexists _, _. split; reflexivity. }
    destruct d as [[x0 [u [-> ->]]]|d]; [rewrite (h3 x0 u eq_refl eq_refl) in h|rewrite (h1 (conj z d)) in h]; discriminate h.
  - assert (ga : forall v, In v (leaves a) -> good v) by (intros; apply hl, in_or_app; auto).
    assert (gb : forall v, In v (leaves b) -> good v) by (intros; apply hl, in_or_app; auto).
    apply bind_ok in h. destruct h as [va [ea h]]. apply bind_ok in h. destruct h as [vb [eb h]].
    destruct (IHa _ ga ea) as [x gx]. destruct (IHb _ gb eb) as [y gy]. eexists. econstructor; eassumption.
  - assert (ga : forall v, In v (leaves a) -> good v) by (intros; apply hl, in_or_app; auto).
    assert (gb : forall v, In v (leaves b) -> good v) by (intros; apply hl, in_or_app; auto).
    apply bind_ok in h. destruct h as [va [ea h]]. apply bind_ok in h. destruct h as [vb [eb h]].
    destruct (IHa _ ga ea) as [x gx]. destruct (IHb _ gb eb) as [y gy]. eexists. eapply GSub; eassumption.
  - apply bind_ok in h. destruct h as [va [ea h]]. destruct (IHa _ hl ea) as [x gx]. pose proof (expr_good _ _ hl ea) as g.
    pose proof (expr_gives w a x va hw hl gx ea) as q.
    assert (p : exists v, Rpowq (value va) (ev k) = Ok v).
    { destruct va as [v| | |u|m]; cbn in g; try contradiction; cbn [py_pow value] in *.
      - cbn [npow Rnum] in h. destruct (Rpowq v (ev k)); [eauto|discriminate h].
      - unfold unit_pow in h. cbn [npow Rnum] in h. destruct (Rpowq (uv u) (ev k)); [eauto|discriminate h].
      - unfold multi_pow in h. destruct (reduce_tail true true (scale_half k (mtop m)) (scale_half k (mbot m))) as [[t b]|]; [|discriminate h].
        cbn [bind npow Rnum] in h. destruct (Rpowq (mv m) (ev k)); [eauto|discriminate h]. }
    destruct p as [v p]. destruct (qty_value w va x pw g q) as [s [hs ex]]. unfold Rpowq in p. destruct (is_int (ev k)) eqn:i.
    + destruct (int_form k i) as [t [z ->]]. exists (powerRZ x z). apply GPowZ; [exact gx|]. cbn [ev] in p.
      destruct (Req_EM_T x 0) as [e|e]; [right|left; exact e]. assert (vz : value va = 0) by (apply (qty_zero w va x pw g q); exact e).
      rewrite vz in p. replace (Reqb 0 0) with true in p by (symmetry; apply Reqb_true; reflexivity). cbn [andb] in p.
      destruct (Qcltb (qc z) (qc 0)) eqn:l; [discriminate p|]. apply Qcltb_ge in l. rewrite !QcR_qc in l. apply le_IZR. exact l.
    + destruct (Rltb 0 (value va)) eqn:l.
      * apply Rltb_true in l. eexists. apply GPow; [exact gx|]. subst x. apply Rmult_lt_0_compat; assumption.
      * destruct (Reqb (value va) 0) eqn:z; [|discriminate p]. apply Reqb_true in z. destruct (Qcltb (ev k) (qc 0)) eqn:n; [discriminate p|].
        exists 0. apply GPow0; [|apply QcR_lt0; assumption]. rewrite ex, z, Rmult_0_l in gx. exact gx.
  - apply bind_ok in h. destruct h as [va [ea h]]. destruct (IHa _ hl ea) as [x gx]. eexists. constructor. exact gx.
Qed.
Theorem expr_actual w e r : coherent w -> (forall v, In v (leaves e) -> good v) -> eval e = Ok r -> exists x, gives w e x /\ qty w r = Some x.
Proof. intros hw hl h. destruct (gives_total w e r hw hl h) as [x g]. exists x. split; [exact g|]. eapply expr_gives; eassumption. Qed.

(** ** Products, quotients and powers *)
Lemma with_pos a b f : (forall p q, 0 < f p q) -> 0 < with_vals a b f.
Proof. intro h. unfold with_vals. destruct (eval a); [destruct (eval b)|]; try lra. apply h. Qed.
Lemma loss_pos w e : 0 < loss w e.
Proof.
  induction e; cbn [loss]; try lra; try assumption; try apply exp_pos.
  - apply Rmult_lt_0_compat; [apply Rmult_lt_0_compat; assumption|apply with_pos, lost_mul_pos].
  - apply Rmult_lt_0_compat; [apply Rdiv_lt_0_compat; assumption|apply with_pos, lost_div_pos].
Qed.
Lemma Rpower_div x y k : 0 < x -> 0 < y -> Rpower (x / y) k = Rpower x k / Rpower y k.
Proof.
  intros hx hy. unfold Rpower. unfold Rdiv. rewrite ln_mult by (try assumption; apply Rinv_0_lt_compat; assumption). rewrite ln_Rinv by assumption.
  rewrite <- exp_Ropp, <- exp_plus. f_equal. ring.
Qed.
Lemma powerRZ_div x y z : x <> 0 \/ (0 <= z)%Z -> 0 < y -> powerRZ (x / y) z = powerRZ x z / powerRZ y z.
Proof.
  intros hx hy. destruct z as [|p|p]; cbn [powerRZ].
  - field.
  - unfold Rdiv. rewrite Rpow_mult_distr. f_equal. apply pow_inv.
  - destruct hx as [hx|hx]; [|lia]. assert (y <> 0) by lra. unfold Rdiv. rewrite Rpow_mult_distr. rewrite pow_inv. field. split; apply pow_nonzero; assumption.
Qed.
Theorem monomial_gives w e x r : coherent w -> (forall v, In v (leaves e) -> good v) -> monomial e -> denotes w e x -> eval e = Ok r -> gives w e (x / loss w e).
Proof.
  intros hw hl hm hd. revert r hl hm. pose proof (co_pos _ hw) as pw.
  induction hd as [v x q|a b x y da IHa db IHb|a b x y da IHa db IHb ny|a b x y da IHa db IHb|a b x y da IHa db IHb|a k x da IHa px|a t z x da IHa px|a x da IHa];
    cbn [leaves eval monomial loss]; intros r hl hm h.
  - replace (x / 1) with x by field. constructor. exact q.
  - assert (ga : forall v, In v (leaves a) -> good v) by (intros; apply hl, in_or_app; auto).
    assert (gb : forall v, In v (leaves b) -> good v) by (intros; apply hl, in_or_app; auto).
    apply bind_ok in h. destruct h as [va [ea h]]. apply bind_ok in h. destruct h as [vb [eb h]]. destruct hm as [ma mb].
    unfold with_vals. rewrite ea, eb. pose proof (loss_pos w a). pose proof (loss_pos w b). pose proof (lost_mul_pos w va vb).
    replace (x * y / (loss w a * loss w b * lost_mul w va vb)) with (x / loss w a * (y / loss w b) / lost_mul w va vb) by (field; lra).
    constructor; eauto.
  - assert (ga : forall v, In v (leaves a) -> good v) by (intros; apply hl, in_or_app; auto).
    assert (gb : forall v, In v (leaves b) -> good v) by (intros; apply hl, in_or_app; auto).
    apply bind_ok in h. destruct h as [va [ea h]]. apply bind_ok in h. destruct h as [vb [eb h]]. destruct hm as [ma mb].
    unfold with_vals. rewrite ea, eb. pose proof (loss_pos w a). pose proof (loss_pos w b). pose proof (lost_div_pos va vb).
    replace (x / y / (loss w a / loss w b * lost_div va vb)) with (x / loss w a / (y / loss w b) / lost_div va vb) by (field; repeat split; lra).
    constructor; eauto. unfold Rdiv. apply Rmult_integral_contrapositive_currified; [exact ny|]. apply Rinv_neq_0_compat. lra.
  - contradiction.
  - contradiction.
  - apply bind_ok in h. destruct h as [va [ea h]]. rewrite <- Rpower_div by (try assumption; apply loss_pos). constructor; [eapply IHa; eassumption|].
    apply Rdiv_lt_0_compat; [exact px|apply loss_pos].
  - apply bind_ok in h. destruct h as [va [ea h]]. cbn [ev]. rewrite QcR_qc. rewrite <- powerRZ_Rpower by apply loss_pos. rewrite <- powerRZ_div by (try assumption; apply loss_pos).
    constructor; [eapply IHa; eassumption|]. destruct px as [px|px]; [left|right; exact px]. pose proof (loss_pos w a).
    unfold Rdiv. apply Rmult_integral_contrapositive_currified; [exact px|]. apply Rinv_neq_0_compat. lra.
  - apply bind_ok in h. destruct h as [va [ea h]]. replace (- x / loss w a) with (- (x / loss w a)) by (field; pose proof (loss_pos w a); lra). constructor. eapply IHa; eassumption.
Qed.
Lemma right_iff x l : 0 < l -> (Some (x / l) = Some x <-> x = 0 \/ l = 1).
Proof.
  intro p. split.
  - intro k. assert (k' : x / l = x) by congruence. destruct (Req_EM_T x 0) as [z|z]; [left; exact z|right]. exact (over_one x l z p k').
  - intros [z|z]; f_equal; rewrite z; field. lra.
Qed.
Theorem monomial_exact w e x r : coherent w -> (forall v, In v (leaves e) -> good v) -> monomial e -> denotes w e x -> eval e = Ok r ->
  qty w r = Some (x / loss w e) /\ (qty w r = Some x <-> x = 0 \/ loss w e = 1).
Proof.
  intros hw hl hm hd h. pose proof (expr_gives w e _ r hw hl (monomial_gives w e x r hw hl hm hd h) h) as q. split; [exact q|]. rewrite q. pose proof (loss_pos w e) as p. split.
  - intro k. assert (k' : x / loss w e = x) by congruence. destruct (Req_EM_T x 0) as [z|z]; [left; exact z|right]. exact (over_one x (loss w e) z p k').
  - intros [z|z]; f_equal; [rewrite z|rewrite z]; field. lra.
Qed.

(** ** The operators of C12 and C13 *)
Lemma mul_mu_iff (a : multi_obj R) (u : unit_obj R) : adm_multi a -> admissible (un u) ->
  exists r, py_mul (VMulti a) (VUnit u) = Ok r /\ forall w x y, coherent w -> qty w (VMulti a) = Some x -> qty w (VUnit u) = Some y ->
    (qty w r = Some (x * y) <-> x * y = 0 \/ mscale a * uscale u = 1).
Proof.
  intros ha hu. destruct (mul_mu_exact a u ha hu) as [r [e [_ q]]]. exists r. split; [exact e|]. intros w x y hw qx qy. rewrite (q w x y hw qx qy). apply right_iff.
  apply Rmult_lt_0_compat; [apply msize_pos; exact pscale_pos|apply exp_pos].
Qed.
Lemma div_um_iff (a : multi_obj R) (u : unit_obj R) : adm_multi a -> admissible (un u) -> mv a <> 0 ->
  exists r, py_div (VUnit u) (VMulti a) = Ok r /\ forall w x y, coherent w -> qty w (VUnit u) = Some x -> qty w (VMulti a) = Some y ->
    (qty w r = Some (x / y) <-> x / y = 0 \/ uscale u = mscale a).
Proof.
  intros ha hu hz. destruct (div_um_exact a u ha hu hz) as [r [e q]]. exists r. split; [exact e|]. intros w x y hw qx qy. rewrite (q w x y hw qx qy).
  assert (p1 : 0 < mscale a) by (apply msize_pos; exact pscale_pos). assert (p2 : 0 < uscale u) by apply exp_pos.
  change (Some (x / y / (uscale u / mscale a)) = Some (x / y) <-> x / y = 0 \/ uscale u = mscale a). rewrite right_iff by (apply Rdiv_lt_0_compat; assumption).
  split; (intros [k|k]; [left; exact k|right]).
  - apply (f_equal (fun t => t * mscale a)) in k. field_simplify in k; lra.
  - rewrite k. field. lra.
Qed.

Lemma pscale_km : pscale "km" = 1000.
Proof. unfold pscale. destruct (in_dec string_dec "km" ["min"; "cP"; "mol"; "kg"]) as [i|i]; [cbn in i; intuition discriminate|]. reflexivity. Qed.
Lemma pscale_mm : pscale "mm" = / 1000.
Proof. unfold pscale. destruct (in_dec string_dec "mm" ["min"; "cP"; "mol"; "kg"]) as [i|i]; [cbn in i; intuition discriminate|]. reflexivity. Qed.
Lemma pscale_cP : pscale "cP" = 1.
Proof. unfold pscale. destruct (in_dec string_dec "cP" ["min"; "cP"; "mol"; "kg"]) as [i|i]; [reflexivity|]. exfalso. apply i. cbn. tauto. Qed.
Lemma pscale_cm : pscale "cm" = / 100.
Proof. unfold pscale. destruct (in_dec string_dec "cm" ["min"; "cP"; "mol"; "kg"]) as [i|i]; [cbn in i; intuition discriminate|]. reflexivity. Qed.

(** ** 5 km/s times 1 s *)
Definition km_of : expr := EMul (ELeaf (VMulti kmps)) (ELeaf (VUnit sec1)).
Lemma km_case : (forall v, In v (leaves km_of) -> good v) /\ monomial km_of /\ denotes si km_of 5000 /\ loss si km_of = 1000 /\ exists r, eval km_of = Ok r /\ qty si r = Some 5.
Proof.
  destruct kmps_mul as [r [e [q [q1 q2]]]]. destruct kmps_adm as [a1 a2].
  split; [|split; [split; exact I|split; [|split; [|exists r; split; [exact e|exact q]]]]].
  - intros v [<-|[<-|[]]]; [exact a1|]. split; [exact a2|]. apply built_simple; [reflexivity|exact I].
  - replace 5000 with (5000 * 1) by ring. constructor; constructor; assumption.
  - unfold loss, km_of, with_vals. cbn [eval lost_mul]. unfold mscale, uscale, msize. cbn [kmps sec1 mtop mbot un ue usize bname bexp]. rewrite ev_ex1, (QcR1 (eint 1)) by reflexivity.
    rewrite !Rpower1 by apply pscale_pos. rewrite pscale_km. change (pscale "s") with 1. field.
Qed.
