(** * ExprFacts: whole expressions *)
From Coq Require Import String Ascii List ZArith QArith Qcanon Bool Reals Qreals Lia Lra.
From Verif Require Import Py Num UnitsData UnitsStruct Units NumFacts Spec SpecFacts StructFacts CombineFacts CancelFacts
  ExpandFacts PrefixFacts SimplifyFacts OpFacts NamesFacts ClosureFacts FactorFacts LawFacts WitnessFacts PropFacts OpPropFacts Expr.
Import ListNotations.
Local Open Scope string_scope.
Local Open Scope list_scope.
Local Open Scope R_scope.

Lemma expr_good e r : (forall v, In v (leaves e) -> good v) -> eval e = Ok r -> good r.
Proof.
  revert r. induction e as [v|a IHa b IHb|a IHa b IHb|a IHa b IHb|a IHa b IHb|a IHa k|a IHa]; cbn [leaves eval]; intros r hl h.
  - injection h as <-. apply hl. left. reflexivity.
  - apply bind_ok in h. destruct h as [x [ex h]]. apply bind_ok in h. destruct h as [y [ey h]].
    eapply good_mul; [| |exact h]; [apply IHa|apply IHb]; auto; intros v hv; apply hl, in_or_app; auto.
  - apply bind_ok in h. destruct h as [x [ex h]]. apply bind_ok in h. destruct h as [y [ey h]].
    eapply good_div; [| |exact h]; [apply IHa|apply IHb]; auto; intros v hv; apply hl, in_or_app; auto.
  - apply bind_ok in h. destruct h as [x [ex h]]. apply bind_ok in h. destruct h as [y [ey h]].
    eapply good_addsub; [| |left; exact h]; [apply IHa|apply IHb]; auto; intros v hv; apply hl, in_or_app; auto.
  - apply bind_ok in h. destruct h as [x [ex h]]. apply bind_ok in h. destruct h as [y [ey h]].
    eapply good_addsub; [| |right; exact h]; [apply IHa|apply IHb]; auto; intros v hv; apply hl, in_or_app; auto.
  - apply bind_ok in h. destruct h as [x [ex h]]. eapply good_pow; [|exact h]. apply IHa; auto.
  - apply bind_ok in h. destruct h as [x [ex h]]. eapply good_neg; [|exact h]. apply IHa; auto.
Qed.

(** Only these exceptions can end an evaluation over good constants. *)
Definition arith_exn (e : exn) : Prop := e = ETypeError \/ e = EZeroDivisionError \/ e = Unmodelled.
Lemma Rpowq_exn x q e : Rpowq x q = Raise e -> e = EZeroDivisionError \/ (e = Unmodelled /\ x < 0 /\ is_int q = false).
Proof.
  unfold Rpowq. destruct (is_int q) eqn:i.
  - destruct (_ && _); intro h; [injection h as <-; auto|discriminate].
  - destruct (Rltb 0 x) eqn:h1; [discriminate|]. destruct (Reqb x 0) eqn:h2.
    + destruct (Qcltb q (qc 0)); intro h; [injection h as <-; auto|discriminate].
    + intro h. injection h as <-. right. split; [reflexivity|]. split; [|reflexivity]. apply Rltb_false in h1. apply Reqb_false in h2. lra.
Qed.
Lemma expr_exn e x : (forall v, In v (leaves e) -> good v) -> eval e = Raise x -> arith_exn x.
Proof.
  revert x. induction e as [v|a IHa b IHb|a IHa b IHb|a IHa b IHb|a IHa b IHb|a IHa k|a IHa]; cbn [leaves eval]; intros x hl h.
  - discriminate.
  - assert (ga : forall v, In v (leaves a) -> good v) by (intros; apply hl, in_or_app; auto).
    assert (gb : forall v, In v (leaves b) -> good v) by (intros; apply hl, in_or_app; auto).
    destruct (eval a) as [va|xa] eqn:ea; cbn [bind] in h; [|injection h as <-; exact (IHa _ ga eq_refl)].
    destruct (eval b) as [vb|xb] eqn:eb; cbn [bind] in h; [|injection h as <-; exact (IHb _ gb eq_refl)].
    destruct (mul_total va vb (expr_good _ _ ga ea) (expr_good _ _ gb eb)) as [r k]. rewrite k in h. discriminate.
  - assert (ga : forall v, In v (leaves a) -> good v) by (intros; apply hl, in_or_app; auto).
    assert (gb : forall v, In v (leaves b) -> good v) by (intros; apply hl, in_or_app; auto).
    destruct (eval a) as [va|xa] eqn:ea; cbn [bind] in h; [|injection h as <-; exact (IHa _ ga eq_refl)].
    destruct (eval b) as [vb|xb] eqn:eb; cbn [bind] in h; [|injection h as <-; exact (IHb _ gb eq_refl)].
    destruct (div_total va vb (expr_good _ _ ga ea) (expr_good _ _ gb eb)) as [h1 [h2 h3]].
    assert (d : (exists x u, va = VNum x /\ vb = VUnit u) \/ ((forall x, va <> VNum x) \/ (forall u, vb <> VUnit u))).
    { destruct va; try (right; left; discriminate). destruct vb; try (right; right; discriminate). left. eauto. }
    destruct d as [[x0 [u [-> ->]]]|d].
    + rewrite (h3 x0 u eq_refl eq_refl) in h. injection h as <-. left. reflexivity.
    + destruct (Req_EM_T (value vb) 0) as [z|z].
      * rewrite (h1 (conj z d)) in h. injection h as <-. right. left. reflexivity.
      * destruct (h2 z d) as [r k]. rewrite k in h. discriminate.
  - assert (ga : forall v, In v (leaves a) -> good v) by (intros; apply hl, in_or_app; auto).
    assert (gb : forall v, In v (leaves b) -> good v) by (intros; apply hl, in_or_app; auto).
    destruct (eval a) as [va|xa] eqn:ea; cbn [bind] in h; [|injection h as <-; exact (IHa _ ga eq_refl)].
    destruct (eval b) as [vb|xb] eqn:eb; cbn [bind] in h; [|injection h as <-; exact (IHb _ gb eq_refl)].
    pose proof (expr_good _ _ ga ea) as g1. pose proof (expr_good _ _ gb eb) as g2.
    left. destruct va as [?| | |u|m]; cbn in g1; try contradiction; destruct vb as [?| | |u'|m']; cbn in g2; try contradiction; try discriminate h; try (cbn in h; congruence).
    + rewrite (proj1 (add_num u x0 (proj2 g1))) in h. discriminate.
    + change (unit_addsub nadd u (VUnit u') = Raise x) in h. destruct (addsub_u nadd u u' (proj2 g1)) as [[_ [_ [_ k]]]|[_ k]]; congruence.
    + cbn [py_add multi_add] in h. repeat match type of h with context [if ?c then _ else _] => destruct c end; congruence.
  - assert (ga : forall v, In v (leaves a) -> good v) by (intros; apply hl, in_or_app; auto).
    assert (gb : forall v, In v (leaves b) -> good v) by (intros; apply hl, in_or_app; auto).
    destruct (eval a) as [va|xa] eqn:ea; cbn [bind] in h; [|injection h as <-; exact (IHa _ ga eq_refl)].
    destruct (eval b) as [vb|xb] eqn:eb; cbn [bind] in h; [|injection h as <-; exact (IHb _ gb eq_refl)].
    pose proof (expr_good _ _ ga ea) as g1. pose proof (expr_good _ _ gb eb) as g2.
    left. destruct va as [?| | |u|m]; cbn in g1; try contradiction; destruct vb as [?| | |u'|m']; cbn in g2; try contradiction; try discriminate h; try (cbn in h; congruence).
    + rewrite (proj2 (add_num u x0 (proj2 g1))) in h. discriminate.
    + change (unit_addsub nsub u (VUnit u') = Raise x) in h. destruct (addsub_u nsub u u' (proj2 g1)) as [[_ [_ [_ k]]]|[_ k]]; congruence.
    + cbn [py_sub multi_sub] in h. repeat match type of h with context [if ?c then _ else _] => destruct c end; congruence.
  - destruct (eval a) as [va|xa] eqn:ea; cbn [bind] in h; [|injection h as <-; exact (IHa _ hl eq_refl)].
    pose proof (expr_good _ _ hl ea) as g.
    assert (forall y, Rpowq y (ev k) = Raise x -> arith_exn x) as hp.
    { intros y hy. apply Rpowq_exn in hy. destruct hy as [-> |[-> _]]; right; auto. }
    destruct va as [y| | |u|m]; cbn in g; try contradiction; cbn [py_pow] in h.
    + cbn [npow Rnum] in h. destruct (Rpowq y (ev k)) eqn:p; cbn in h; [discriminate|]. injection h as ->. eauto.
    + unfold unit_pow in h. cbn [npow Rnum] in h. destruct (Rpowq (uv u) (ev k)) eqn:p; cbn [bind] in h; [|injection h as ->; eauto].
      unfold vunit in h. rewrite (rebuild u _ _ (proj2 g)) in h. discriminate.
    + unfold multi_pow in h. destruct (reduce_tail_ok true true (scale_half k (mtop m)) (scale_half k (mbot m))) as [t [b [e _]]].
      rewrite e in h. cbn [bind npow Rnum] in h. destruct (Rpowq (mv m) (ev k)) eqn:p; cbn [bind] in h; [discriminate|injection h as ->; eauto].
  - destruct (eval a) as [va|xa] eqn:ea; cbn [bind] in h; [|injection h as <-; exact (IHa _ hl eq_refl)].
    pose proof (expr_good _ _ hl ea) as g. destruct va as [y| | |u|m]; cbn in g; try contradiction; cbn [py_neg] in h; try discriminate.
    unfold unit_neg, vunit in h. rewrite (rebuild u _ _ (proj2 g)) in h. discriminate.
Qed.

(** Sign and zero of a quantity are those of its value. *)
Lemma qty_value w v x : positive w -> good v -> qty w v = Some x -> exists s, 0 < s /\ x = value v * s.
Proof.
  intros hw g h. destruct v as [y| | |u|m]; cbn in g; try contradiction; cbn [qty value] in *; injection h as <-.
  - exists 1. split; lra.
  - eexists. split; [|reflexivity]. apply exp_pos.
  - eexists. split; [|reflexivity]. apply msize_pos.
Qed.
Lemma good_quantity v : good v -> (exists x, v = VNum x) \/ is_quantity v.
Proof. destruct v; cbn; try tauto; eauto. Qed.

Lemma expr_sound w e x r : coherent w -> (forall v, In v (leaves e) -> good v) -> clean e ->
  denotes w e x -> eval e = Ok r -> qty w r = Some x.
Proof.
  intros hw hl hc hd. revert r hl hc. pose proof (co_pos _ hw) as pw.
  induction hd as [v x q|a b x y da IHa db IHb|a b x y da IHa db IHb ny|a b x y da IHa db IHb|a b x y da IHa db IHb|a k x da IHa px|a t z x da IHa px|a x da IHa];
    cbn [leaves eval clean]; intros r hl hc h.
  - injection h as <-. exact q.
  - destruct hc as [ca [cb cm]].
    assert (ga : forall v, In v (leaves a) -> good v) by (intros; apply hl, in_or_app; auto).
    assert (gb : forall v, In v (leaves b) -> good v) by (intros; apply hl, in_or_app; auto).
    apply bind_ok in h. destruct h as [va [ea h]]. apply bind_ok in h. destruct h as [vb [eb h]].
    specialize (IHa va ga ca ea). specialize (IHb vb gb cb eb). specialize (cm va vb ea eb).
    pose proof (expr_good _ _ ga ea) as g1. pose proof (expr_good _ _ gb eb) as g2.
    destruct va as [p| | |u|m]; cbn in g1; try contradiction; destruct vb as [p'| | |u'|m']; cbn in g2; try contradiction; cbn [clean_mul] in cm.
    + cbn in *. injection h as <-. injection IHa as <-. injection IHb as <-. reflexivity.
    + destruct (scale_partial (VUnit u') p) as [r' [_ [e [_ q]]]]; [exact (proj2 g2)|intros ? k; injection k as <-; exact cm|].
      rewrite h in e. injection e as <-. rewrite (q w y IHb). cbn in IHa. injection IHa as <-. f_equal. ring.
    + destruct (scale_partial (VMulti m') p) as [r' [_ [e [_ q]]]]; [exact I|discriminate|].
      rewrite h in e. injection e as <-. rewrite (q w y IHb). cbn in IHa. injection IHa as <-. f_equal. ring.
    + destruct (scale_partial (VUnit u) p') as [r' [e [_ [_ q]]]]; [exact (proj2 g1)|intros ? k; injection k as <-; exact cm|].
      rewrite h in e. injection e as <-. rewrite (q w x IHa). cbn in IHb. injection IHb as <-. reflexivity.
    + destruct (mul_uu u u' (proj2 g1) cm) as [r' [e q]]. rewrite h in e. injection e as <-. apply q; assumption.
    + destruct (mul_mu_exact m' u g2 (proj1 g1)) as [r' [_ [e q]]]. rewrite h in e. injection e as <-. rewrite (q w y x hw IHb IHa). f_equal.
      unfold mscale, uscale in cm. rewrite cm. field.
    + destruct (scale_partial (VMulti m) p') as [r' [e [_ [_ q]]]]; [exact I|discriminate|].
      rewrite h in e. injection e as <-. rewrite (q w x IHa). cbn in IHb. injection IHb as <-. reflexivity.
    + destruct (mul_mu_exact m u' g1 (proj1 g2)) as [r' [e [_ q]]]. rewrite h in e. injection e as <-. rewrite (q w x y hw IHa IHb). f_equal.
      unfold mscale, uscale in cm. rewrite cm. field.
    + destruct (mul_mm m m' g1 g2) as [r' [e [_ q]]]. rewrite h in e. injection e as ->. apply (q w); assumption.
  - destruct hc as [ca [cb cm]].
    assert (ga : forall v, In v (leaves a) -> good v) by (intros; apply hl, in_or_app; auto).
    assert (gb : forall v, In v (leaves b) -> good v) by (intros; apply hl, in_or_app; auto).
    apply bind_ok in h. destruct h as [va [ea h]]. apply bind_ok in h. destruct h as [vb [eb h]].
    specialize (IHa va ga ca ea). specialize (IHb vb gb cb eb). specialize (cm va vb ea eb).
    pose proof (expr_good _ _ ga ea) as g1. pose proof (expr_good _ _ gb eb) as g2.
    assert (nz : value vb <> 0).
    { destruct (qty_value w vb y pw g2 IHb) as [s [hs e]]. intro k. rewrite k in e. apply ny. rewrite e. ring. }
    destruct va as [p| | |u|m]; cbn in g1; try contradiction; destruct vb as [p'| | |u'|m']; cbn in g2; try contradiction; cbn [clean_div value] in *.
    + cbn [py_div] in h. rewrite pydiv_ok in h by assumption. cbn in *. injection h as <-. injection IHa as <-. injection IHb as <-. reflexivity.
    + discriminate.
    + destruct (rdiv_num m' p nz) as [r' [e q]]. rewrite h in e. injection e as <-. rewrite (q w y pw IHb). cbn in IHa. injection IHa as <-. reflexivity.
    + destruct (proj1 (scale_div (VUnit u) p' (proj2 g1)) nz) as [r' [e [_ q]]]. rewrite h in e. injection e as <-. rewrite (q w x IHa). cbn in IHb. injection IHb as <-. reflexivity.
    + destruct (div_uu u u' (proj2 g1) nz) as [r' [e q]]. rewrite h in e. injection e as <-. apply q; assumption.
    + destruct (div_um_exact m' u g2 (proj1 g1) nz) as [r' [e q]]. rewrite h in e. injection e as <-. rewrite (q w x y hw IHa IHb). f_equal.
      unfold mscale, uscale in cm. rewrite cm. pose proof (msize_pos pscale (mtop m') (mbot m')). field. split; [assumption|lra].
    + destruct (proj1 (scale_div (VMulti m) p' I) nz) as [r' [e [_ q]]]. rewrite h in e. injection e as <-. rewrite (q w x IHa). cbn in IHb. injection IHb as <-. reflexivity.
    + destruct (div_mu m u' g1 (proj1 g2) nz) as [r' [e q]]. rewrite h in e. injection e as <-. apply (q w); assumption.
    + destruct (div_mm m m' g1 g2 nz) as [r' [e q]]. rewrite h in e. injection e as <-. apply (q w); assumption.
  - destruct hc as [ca [cb cm]].
    assert (ga : forall v, In v (leaves a) -> good v) by (intros; apply hl, in_or_app; auto).
    assert (gb : forall v, In v (leaves b) -> good v) by (intros; apply hl, in_or_app; auto).
    apply bind_ok in h. destruct h as [va [ea h]]. apply bind_ok in h. destruct h as [vb [eb h]].
    specialize (IHa va ga ca ea). specialize (IHb vb gb cb eb). specialize (cm va vb ea eb).
    pose proof (expr_good _ _ ga ea) as g1. pose proof (expr_good _ _ gb eb) as g2.
    destruct (good_quantity va g1) as [[p ->]|q1].
    { destruct vb as [p'| | |u'|m']; cbn in g2; try contradiction; try discriminate. cbn in *. injection h as <-. injection IHa as <-. injection IHb as <-. reflexivity. }
    destruct (good_quantity vb g2) as [[p ->]|q2].
    { destruct va as [p'| | |u'|m']; cbn in g1, q1, cm; try contradiction; try discriminate. }
    destruct (addsub_sound va vb q1 q2) as [[k|[r' [k [_ [_ q]]]]] _]; [congruence|]. rewrite h in k. injection k as <-. apply q; assumption.
  - destruct hc as [ca [cb cm]].
    assert (ga : forall v, In v (leaves a) -> good v) by (intros; apply hl, in_or_app; auto).
    assert (gb : forall v, In v (leaves b) -> good v) by (intros; apply hl, in_or_app; auto).
    apply bind_ok in h. destruct h as [va [ea h]]. apply bind_ok in h. destruct h as [vb [eb h]].
    specialize (IHa va ga ca ea). specialize (IHb vb gb cb eb). specialize (cm va vb ea eb).
    pose proof (expr_good _ _ ga ea) as g1. pose proof (expr_good _ _ gb eb) as g2.
    destruct (good_quantity va g1) as [[p ->]|q1].
    { destruct vb as [p'| | |u'|m']; cbn in g2; try contradiction; try discriminate. cbn in *. injection h as <-. injection IHa as <-. injection IHb as <-. reflexivity. }
    destruct (good_quantity vb g2) as [[p ->]|q2].
    { destruct va as [p'| | |u'|m']; cbn in g1, q1, cm; try contradiction; try discriminate. }
    destruct (addsub_sound va vb q1 q2) as [_ [k|[r' [k [_ [_ q]]]]]]; [congruence|]. rewrite h in k. injection k as <-. apply q; assumption.
  - apply bind_ok in h. destruct h as [va [ea h]]. specialize (IHa va hl hc ea). pose proof (expr_good _ _ hl ea) as g.
    assert (pv : 0 < value va).
    { destruct (qty_value w va x pw g IHa) as [s [hs e]]. subst x. destruct (Rle_or_lt (value va) 0) as [n|n]; [|exact n].
      exfalso. assert (value va * s <= 0) by (replace 0 with (0 * s) by ring; apply Rmult_le_compat_r; lra). lra. }
    destruct (good_quantity va g) as [[p ->]|q1].
    { cbn [py_pow npow Rnum] in h. cbn in pv, IHa. rewrite Rpowq_pos in h by assumption. injection h as <-. injection IHa as <-. reflexivity. }
    destruct (pow_all va k q1) as [r' [e q]]; [destruct va; cbn in *; try contradiction; assumption|].
    rewrite h in e. injection e as <-. apply q; assumption.
  - apply bind_ok in h. destruct h as [va [ea h]]. specialize (IHa va hl hc ea). pose proof (expr_good _ _ hl ea) as g.
    assert (pv : value va <> 0 \/ (0 <= z)%Z).
    { destruct (qty_value w va x pw g IHa) as [s [hs e]]. subst x. destruct px as [px|px]; [|auto]. left. intro k. apply px. rewrite k. ring. }
    destruct (good_quantity va g) as [[p ->]|q1].
    { cbn [py_pow npow Rnum] in h. cbn in pv, IHa. cbn [ev] in h. rewrite Rpowq_int in h by assumption. injection h as <-. injection IHa as <-. reflexivity. }
    destruct (pow_int_all va t z q1) as [r' [e q]]; [destruct va; cbn in *; try contradiction; assumption|].
    rewrite h in e. injection e as <-. apply q; assumption.
  - apply bind_ok in h. destruct h as [va [ea h]]. specialize (IHa va hl hc ea). pose proof (expr_good _ _ hl ea) as g.
    destruct (good_quantity va g) as [[p ->]|q1].
    { cbn in *. injection h as <-. injection IHa as <-. reflexivity. }
    destruct (neg_all va q1) as [r' [e [_ [_ q]]]]. rewrite h in e. injection e as <-. apply q; assumption.
Qed.
