(** * ClosureFacts: results of arithmetic are again objects the laws apply to *)
From Coq Require Import String Ascii List ZArith QArith Qcanon Bool Reals Qreals Lia Lra.
From Verif Require Import Py Num UnitsData UnitsStruct Units NumFacts Spec SpecFacts StructFacts CombineFacts CancelFacts
  ExpandFacts PrefixFacts SimplifyFacts OpFacts NamesFacts.
Import ListNotations.
Local Open Scope string_scope.
Local Open Scope list_scope.
Local Open Scope R_scope.

Lemma built_unit v n e : built (UO UUnit v n e).
Proof. exists v, n, e. reflexivity. Qed.
Lemma built_again (u : unit_obj R) v e : built u -> built (UO (uc u) v (un u) e).
Proof. intro h. exists v, (un u), e. cbn [uc]. apply rebuild. exact h. Qed.

Lemma unp_adm l : unprefixed_half l -> adm_half l.
Proof. intros h x hx. apply unprefixed_admissible, h, hx. Qed.

Lemma good_multi v t b : unprefixed_half t -> unprefixed_half b -> good (VMulti (MO MMulti v t b)).
Proof. intros h1 h2. split; cbn; apply unp_adm; assumption. Qed.
Lemma good_plain v x e l : unprefixed_half l -> In x l -> good (plain v x e).
Proof. intros h hx. split; [|apply built_unit]. apply unprefixed_admissible, (h x hx). Qed.
Lemma good_shape_div v t b : unprefixed_half t -> unprefixed_half b -> good (shape_div v t b).
Proof.
  intros h1 h2. unfold shape_div.
  destruct t as [|x [|y t]]; destruct b as [|z [|z' b]]; try (apply good_multi; assumption).
  - exact I.
  - apply (good_plain v z _ _ h2). left. reflexivity.
  - apply (good_plain v x _ _ h1). left. reflexivity.
Qed.
Lemma good_shape_mul v t b : unprefixed_half t -> unprefixed_half b -> good (shape_mul v t b).
Proof.
  intros h1 h2. unfold shape_mul.
  destruct t as [|x [|y t]]; destruct b as [|z b]; try (apply good_multi; assumption).
  - exact I.
  - apply (good_plain v x _ _ h1). left. reflexivity.
Qed.

Lemma bind_ok {A B} (x : res A) (f : A -> res B) r : bind x f = Ok r -> exists a, x = Ok a /\ f a = Ok r.
Proof. destruct x as [a|]; cbn; [eauto|discriminate]. Qed.

Lemma good_mul a b r : good a -> good b -> py_mul a b = Ok r -> good r.
Proof.
  intros ha hb h.
  destruct a as [x| | |u|m]; destruct b as [y| | |u'|m']; cbn [good] in ha, hb; try contradiction; cbn [py_mul] in h.
  - injection h as <-. exact I.
  - cbn [unit_rmul] in h. destruct hb as [hb1 hb2]. rewrite rebuild in h by assumption. injection h as <-.
    split; [exact hb1|apply built_again; exact hb2].
  - cbn in h. injection h as <-. exact hb.
  - cbn [unit_mul] in h. destruct ha as [ha1 ha2]. rewrite rebuild in h by assumption. injection h as <-.
    split; [exact ha1|apply built_again; exact ha2].
  - cbn [unit_mul] in h. destruct ha as [ha1 ha2]. destruct hb as [hb1 hb2].
    destruct (ucls_eqb (uc u) (uc u') && String.eqb (un u) (un u')).
    + rewrite rebuild in h by assumption. injection h as <-. split; [exact ha1|apply built_again; exact ha2].
    + injection h as <-. split; cbn.
      * intros z [<-|[<-|[]]]; cbn; assumption.
      * intros z [].
  - cbn [unit_mul multi_mul] in h. destruct ha as [ha1 ha2]. destruct hb as [hb1 hb2].
    apply bind_ok in h. destruct h as [[[t b] f] [e h]]. injection h as <-.
    apply reduce_unprefixed_names in e; [|apply adm_app; auto using adm_one|auto]. apply good_shape_mul; tauto.
  - cbn in h. injection h as <-. exact ha.
  - cbn [multi_mul] in h. destruct ha as [ha1 ha2]. destruct hb as [hb1 hb2].
    apply bind_ok in h. destruct h as [[[t b] f] [e h]]. injection h as <-.
    apply reduce_unprefixed_names in e; [|apply adm_app; auto using adm_one|auto]. apply good_shape_mul; tauto.
  - cbn [multi_mul] in h. destruct ha as [ha1 ha2]. destruct hb as [hb1 hb2].
    apply bind_ok in h. destruct h as [[[t b] f] [e h]]. injection h as <-.
    apply reduce_unprefixed_names in e; [|apply adm_app; auto|apply adm_app; auto]. split; cbn; apply unp_adm; tauto.
Qed.

Lemma good_div a b r : good a -> good b -> py_div a b = Ok r -> good r.
Proof.
  intros ha hb h.
  destruct a as [x| | |u|m]; destruct b as [y| | |u'|m']; cbn [good] in ha, hb; try contradiction; cbn [py_div] in h.
  - destruct (pydiv x y); cbn in h; [|discriminate]. injection h as <-. exact I.
  - discriminate.
  - cbn [multi_rdiv] in h. apply bind_ok in h. destruct h as [q [_ h]]. injection h as <-. split; apply hb.
  - cbn [unit_div] in h. destruct ha as [ha1 ha2]. apply bind_ok in h. destruct h as [q [_ h]].
    rewrite rebuild in h by assumption. injection h as <-. split; [exact ha1|apply built_again; exact ha2].
  - cbn [unit_div] in h. destruct ha as [ha1 ha2]. destruct hb as [hb1 hb2]. apply bind_ok in h. destruct h as [q [_ h]].
    destruct (String.eqb (un u) (un u')); [destruct (e_is _ 0)|].
    + injection h as <-. exact I.
    + rewrite rebuild in h by assumption. injection h as <-. split; [exact ha1|apply built_again; exact ha2].
    + injection h as <-. split; cbn; intros z [<-|[]]; cbn; assumption.
  - cbn [unit_div multi_rdiv] in h. destruct ha as [ha1 ha2]. destruct hb as [hb1 hb2].
    apply bind_ok in h. destruct h as [[[t b] f] [e h]]. apply bind_ok in h. destruct h as [q [_ h]]. injection h as <-.
    apply reduce_unprefixed_names in e; [|apply adm_app; auto using adm_one|auto]. apply good_shape_div; tauto.
  - cbn [multi_div] in h. apply bind_ok in h. destruct h as [q [_ h]]. injection h as <-. exact ha.
  - cbn [multi_div] in h. destruct ha as [ha1 ha2]. destruct hb as [hb1 hb2].
    apply bind_ok in h. destruct h as [[[t b] f] [e h]]. apply bind_ok in h. destruct h as [q [_ h]]. injection h as <-.
    apply reduce_unprefixed_names in e; [|auto|apply adm_app; auto using adm_one]. apply good_shape_div; tauto.
  - cbn [multi_div] in h. destruct ha as [ha1 ha2]. destruct hb as [hb1 hb2].
    destruct (half_eqb _ _ && half_eqb _ _) in h.
    + destruct (pydiv (mv m) (mv m')); cbn in h; [|discriminate]. injection h as <-. exact I.
    + apply bind_ok in h. destruct h as [[[t b] f] [e h]]. apply bind_ok in h. destruct h as [q [_ h]]. injection h as <-.
      apply reduce_unprefixed_names in e; [|apply adm_app; auto|apply adm_app; auto]. apply good_shape_div; tauto.
Qed.

Lemma good_addsub a b r : good a -> good b -> (py_add a b = Ok r \/ py_sub a b = Ok r) -> good r.
Proof.
  intros ha hb h.
  destruct a as [x| | |u|m]; destruct b as [y| | |u'|m']; cbn [good] in ha, hb; try contradiction; cbn [py_add py_sub] in h;
    try (destruct h; discriminate).
  - destruct h as [h|h]; injection h as <-; exact I.
  - destruct ha as [ha1 ha2]. cbn [unit_addsub] in h. destruct h as [h|h]; rewrite rebuild in h by assumption; injection h as <-;
      (split; [exact ha1|apply built_again; exact ha2]).
  - destruct ha as [ha1 ha2]. cbn [unit_addsub] in h.
    destruct h as [h|h]; (destruct (ucls_sub _ _) in h; [|discriminate]; destruct (_ && _) in h; [|discriminate]);
      rewrite rebuild in h by assumption; injection h as <-; (split; [exact ha1|apply built_again; exact ha2]).
  - cbn [multi_add multi_sub] in h. destruct h as [h|h].
    + destruct (mcls_eqb _ _) in h; [|discriminate]. destruct (_ && _) in h; [|discriminate]. injection h as <-. exact ha.
    + destruct (_ && _) in h; [|discriminate]. injection h as <-. exact ha.
Qed.

(** Powers do not strip prefixes; the names are kept or come from definitions. *)
Lemma adm_core n : In n core_names -> admissible n.
Proof. intro h. apply unprefixed_admissible, unprefixed_core, h. Qed.
Lemma adm_derived n : In n derived_names -> admissible n.
Proof. intro h. apply unprefixed_admissible, unprefixed_derived, h. Qed.
Lemma good_pow a k r : good a -> py_pow a k = Ok r -> good r.
Proof.
  intros ha h. destruct a as [x| | |u|m]; cbn [good] in ha; try contradiction; cbn [py_pow] in h.
  - destruct (npow x (ev k)); cbn in h; [|discriminate]. injection h as <-. exact I.
  - unfold unit_pow in h. apply bind_ok in h. destruct h as [v [_ h]]. destruct ha as [ha1 ha2].
    rewrite rebuild in h by assumption. injection h as <-. split; [exact ha1|apply built_again; exact ha2].
  - unfold multi_pow in h. apply bind_ok in h. destruct h as [[t b] [e h]]. apply bind_ok in h. destruct h as [v [_ h]].
    injection h as <-. destruct ha as [h1 h2].
    destruct (reduce_tail_names admissible adm_core adm_derived _ _ _ _ _ _ e) as [n1 n2];
      [apply (alln_scaled admissible); exact h1|apply (alln_scaled admissible); exact h2|]. split; assumption.
Qed.
Lemma good_neg a r : good a -> py_neg a = Ok r -> good r.
Proof.
  intros ha h. destruct a as [x| | |u|m]; cbn [good] in ha; try contradiction; cbn [py_neg] in h.
  - injection h as <-. exact I.
  - unfold unit_neg in h. destruct ha as [ha1 ha2].
    rewrite rebuild in h by assumption. injection h as <-. split; [exact ha1|apply built_again; exact ha2].
  - injection h as <-. exact ha.
Qed.

(** ** Algebraic laws *)
Lemma mul_comm (a b : multi_obj R) : adm_multi a -> adm_multi b ->
  exists r r', py_mul (VMulti a) (VMulti b) = Ok r /\ py_mul (VMulti b) (VMulti a) = Ok r' /\
  forall w, coherent w -> qty w r = qty w r' /\ qty w r <> None.
Proof.
  intros ha hb. destruct (mul_mm a b ha hb) as [r [e [_ q]]]. destruct (mul_mm b a hb ha) as [r' [e' [_ q']]].
  exists (VMulti r), (VMulti r'). split; [exact e|]. split; [exact e'|]. intros w hw.
  rewrite (q w _ _ hw eq_refl eq_refl), (q' w _ _ hw eq_refl eq_refl). split; [f_equal; ring|discriminate].
Qed.
Lemma mul_assoc (a b c : multi_obj R) : adm_multi a -> adm_multi b -> adm_multi c ->
  exists ab bc r r', py_mul (VMulti a) (VMulti b) = Ok ab /\ py_mul ab (VMulti c) = Ok r /\
    py_mul (VMulti b) (VMulti c) = Ok bc /\ py_mul (VMulti a) bc = Ok r' /\
  forall w, coherent w -> qty w r = qty w r' /\ qty w r <> None.
Proof.
  intros ha hb hc. destruct (mul_mm a b ha hb) as [ab [e [_ q]]]. destruct (mul_mm b c hb hc) as [bc [e' [_ q']]].
  pose proof (good_mul (VMulti a) (VMulti b) _ ha hb e) as g1. pose proof (good_mul (VMulti b) (VMulti c) _ hb hc e') as g2.
  destruct (mul_mm ab c g1 hc) as [r [e1 [_ q1]]]. destruct (mul_mm a bc ha g2) as [r' [e2 [_ q2]]].
  exists (VMulti ab), (VMulti bc), (VMulti r), (VMulti r'). repeat (split; [assumption|]). intros w hw.
  rewrite (q1 w _ _ hw (q w _ _ hw eq_refl eq_refl) eq_refl), (q2 w _ _ hw eq_refl (q' w _ _ hw eq_refl eq_refl)).
  split; [f_equal; ring|discriminate].
Qed.

Lemma mul_value_nz (a b r : multi_obj R) : adm_multi a -> adm_multi b -> mv a <> 0 -> mv b <> 0 ->
  py_mul (VMulti a) (VMulti b) = Ok (VMulti r) -> mv r <> 0.
Proof.
  intros ha hb h1 h2 e h. destruct (mul_mm a b ha hb) as [r' [e' [_ q]]]. rewrite e in e'. injection e' as <-.
  pose proof (q si _ _ coherent_si eq_refl eq_refl) as hq. cbn [qty] in hq. injection hq as hq. rewrite h, Rmult_0_l in hq.
  pose proof (msize_pos si (mtop a) (mbot a)). pose proof (msize_pos si (mtop b) (mbot b)).
  symmetry in hq. apply Rmult_integral in hq. destruct hq as [hq|hq]; apply Rmult_integral in hq; lra.
Qed.

Lemma mul_div (a b : multi_obj R) : adm_multi a -> adm_multi b -> mv b <> 0 ->
  exists ab r, py_mul (VMulti a) (VMulti b) = Ok ab /\ py_div ab (VMulti b) = Ok r /\
  forall w, coherent w -> qty w r = qty w (VMulti a).
Proof.
  intros ha hb h0. destruct (mul_mm a b ha hb) as [ab [e [_ q]]].
  pose proof (good_mul (VMulti a) (VMulti b) _ ha hb e) as g.
  destruct (div_mm ab b g hb h0) as [r [e1 q1]].
  exists (VMulti ab), r. split; [exact e|]. split; [exact e1|]. intros w hw.
  rewrite (q1 w _ _ hw (q w _ _ hw eq_refl eq_refl) eq_refl). cbn [qty]. f_equal.
  pose proof (msize_pos w (mtop b) (mbot b)). field. lra.
Qed.

Lemma half_eqb_refl l : half_eqb l l = true.
Proof.
  induction l as [|x l IH]; [reflexivity|]. cbn. rewrite IH. unfold bu_eqb. rewrite String.eqb_refl.
  unfold eeqb. rewrite (proj2 (Qceqb_eq _ _) eq_refl). reflexivity.
Qed.
Lemma div_self (a : multi_obj R) : mv a <> 0 -> py_div (VMulti a) (VMulti a) = Ok (VNum 1).
Proof.
  intro h. cbn [py_div multi_div]. rewrite !half_eqb_refl. cbn [andb]. rewrite pydiv_ok by exact h. cbn [rmap].
  replace (mv a / mv a) with 1 by (field; exact h). reflexivity.
Qed.
Lemma div_self_unit (a : unit_obj R) : uv a <> 0 -> py_div (VUnit a) (VUnit a) = Ok (VNum 1).
Proof.
  intro h. cbn [py_div unit_div]. rewrite pydiv_ok by exact h. cbn [bind]. rewrite String.eqb_refl.
  replace (e_is (esub (ue a) (ue a)) 0) with true.
  - replace (uv a / uv a) with 1 by (field; exact h). reflexivity.
  - symmetry. apply expo_z. cbn [esub ev]. rewrite QcR_minus. lra.
Qed.
