(** * OpExactFacts: exactly when the operators that drop exponents are right, and what equality compares *)
From Coq Require Import String Ascii List ZArith QArith Qcanon Bool Reals Qreals Lia Lra.
From Verif Require Import Py Num UnitsData UnitsStruct Units NumFacts Spec SpecFacts StructFacts CombineFacts CancelFacts
  ExpandFacts PrefixFacts SimplifyFacts OpFacts NamesFacts ClosureFacts FactorFacts LawFacts WitnessFacts PropFacts OpPropFacts OpSpec.
Import ListNotations.
Local Open Scope string_scope.
Local Open Scope list_scope.
Local Open Scope R_scope.

Lemma Rpower_one_iff x y : 1 < x -> Rpower x y = 1 -> y = 0.
Proof.
  intros hx h. rewrite <- (Rpower_O x) in h by lra. destruct (Rtotal_order y 0) as [k|[k|k]]; [|exact k|].
  - pose proof (Rpower_lt x y 0 hx k). lra.
  - pose proof (Rpower_lt x 0 y hx k). lra.
Qed.
Lemma minus_power x e : 0 < x -> Rpower x e = x * Rpower x (e - 1).
Proof. intro h. rewrite <- (Rpower_1 x) at 2 by exact h. rewrite <- Rpower_plus. f_equal. lra. Qed.

(** ** Unit * Unit *)
Lemma mul_uu_lost (a b : unit_obj R) : ~ (uc a = uc b /\ un a = un b) ->
  exists r, py_mul (VUnit a) (VUnit b) = Ok r /\
  forall w x y, positive w -> qty w (VUnit a) = Some x -> qty w (VUnit b) = Some y ->
    qty w r = Some (x * y / (Rpower (w (un a)) (QcR (ev (ue a)) - 1) * Rpower (w (un b)) (QcR (ev (ue b)) - 1))).
Proof.
  intro hc. cbn [py_mul unit_mul]. destruct (ucls_eqb (uc a) (uc b) && String.eqb (un a) (un b)) eqn:e.
  { exfalso. apply andb_true_iff in e. destruct e as [e1 e2]. apply ucls_eqb_eq in e1. apply String.eqb_eq in e2. tauto. }
  eexists. split; [reflexivity|]. intros w x y hw hx hy. cbn [qty uv un ue mv mtop mbot] in *. injection hx as <-. injection hy as <-.
  unfold msize. cbn [usize bname bexp nmul Rnum]. rewrite !ev_eint. replace (IZR 1) with 1 by reflexivity. rewrite !Rpower_1 by apply hw.
  rewrite (minus_power (w (un a)) (QcR (ev (ue a)))), (minus_power (w (un b)) (QcR (ev (ue b)))) by apply hw.
  pose proof (Rpower_pos (w (un a)) (QcR (ev (ue a)) - 1)). pose proof (Rpower_pos (w (un b)) (QcR (ev (ue b)) - 1)). f_equal. field. lra.
Qed.
Definition big (n : string) : usys := fun m => if String.eqb m n then 2 else 1.
Lemma big_pos n : positive (big n).
Proof. intro m. unfold big. destruct (String.eqb m n); lra. Qed.
Lemma Rpower_base1 y : Rpower 1 y = 1.
Proof. unfold Rpower. rewrite ln_1, Rmult_0_r. apply exp_0. Qed.
Lemma over_one z p : z <> 0 -> 0 < p -> z / p = z -> p = 1.
Proof. intros hz hp h. apply (Rmult_eq_reg_l z); [|exact hz]. replace (z * p) with (z / p * p) by (rewrite h; reflexivity). field. lra. Qed.
Lemma mul_uu_right (a b : unit_obj R) : built a -> uv a <> 0 -> uv b <> 0 ->
  (exists r, py_mul (VUnit a) (VUnit b) = Ok r /\
     forall w x y, positive w -> qty w (VUnit a) = Some x -> qty w (VUnit b) = Some y -> qty w r = Some (x * y)) <->
  (uc a = uc b /\ un a = un b) \/ (ev (ue a) = qc 1 /\ ev (ue b) = qc 1) \/ (un a = un b /\ (ev (ue a) + ev (ue b))%Qc = qc 2).
Proof.
  intros ha h1 h2. assert (dec : (uc a = uc b /\ un a = un b) \/ ~ (uc a = uc b /\ un a = un b)).
  { destruct (ucls_eqb (uc a) (uc b)) eqn:e1.
    - apply ucls_eqb_eq in e1. destruct (String.eqb_spec (un a) (un b)); tauto.
    - right. intros [k _]. apply ucls_eqb_eq in k. congruence. }
  destruct dec as [same|dif]; [split; [left; exact same|intros _; apply mul_uu; auto]|].
  destruct (mul_uu_lost a b dif) as [r [hr hq]].
  assert (nz : forall w, positive w -> uv a * Rpower (w (un a)) (QcR (ev (ue a))) * (uv b * Rpower (w (un b)) (QcR (ev (ue b)))) <> 0).
  { intros w hw. pose proof (Rpower_pos (w (un a)) (QcR (ev (ue a)))). pose proof (Rpower_pos (w (un b)) (QcR (ev (ue b)))).
    repeat apply Rmult_integral_contrapositive_currified; lra. }
  split.
  - intros [r' [hr' hq']]. rewrite hr in hr'. injection hr' as <-. right.
    assert (key : forall w, positive w -> Rpower (w (un a)) (QcR (ev (ue a)) - 1) * Rpower (w (un b)) (QcR (ev (ue b)) - 1) = 1).
    { intros w hw. pose proof (hq w _ _ hw eq_refl eq_refl) as e1. rewrite (hq' w _ _ hw eq_refl eq_refl) in e1.
      apply (over_one _ _ (nz w hw)); [apply Rmult_lt_0_compat; apply Rpower_pos|]. symmetry.
      assert (inj : forall p q : R, Some p = Some q -> p = q) by (intros; congruence). apply inj. exact e1. }
    destruct (String.eqb_spec (un a) (un b)) as [en|en].
    + right. split; [exact en|]. apply QcR_inj. specialize (key (big (un a)) (big_pos _)). unfold big in key. rewrite <- en, String.eqb_refl, <- Rpower_plus in key.
      apply Rpower_one_iff in key; [|lra]. rewrite QcR_plus, QcR_qc. replace (IZR 2) with 2 by reflexivity. lra.
    + left. pose proof (key (big (un a)) (big_pos _)) as k1. pose proof (key (big (un b)) (big_pos _)) as k2. unfold big in k1, k2. rewrite !String.eqb_refl in k1, k2.
      replace (String.eqb (un b) (un a)) with false in k1 by (symmetry; apply String.eqb_neq; congruence). replace (String.eqb (un a) (un b)) with false in k2 by (symmetry; apply String.eqb_neq; congruence).
      rewrite Rpower_base1, Rmult_1_r in k1. rewrite Rpower_base1, Rmult_1_l in k2. apply Rpower_one_iff in k1; [|lra]. apply Rpower_one_iff in k2; [|lra].
      split; apply QcR_inj; rewrite QcR_qc; replace (IZR 1) with 1 by reflexivity; lra.
  - intros [h|[[e1 e2]|[en e]]]; [tauto|apply mul_uu; auto|]. exists r. split; [exact hr|]. intros w x y hw hx hy. rewrite (hq w x y hw hx hy). f_equal.
    assert (p : Rpower (w (un a)) (QcR (ev (ue a)) - 1) * Rpower (w (un b)) (QcR (ev (ue b)) - 1) = 1).
    { rewrite <- en, <- Rpower_plus. assert (s : QcR (ev (ue a)) + QcR (ev (ue b)) = 2) by (rewrite <- QcR_plus, e, QcR_qc; reflexivity).
      replace (QcR (ev (ue a)) - 1 + (QcR (ev (ue b)) - 1)) with 0 by lra. apply Rpower_O, hw. }
    rewrite p. field.
Qed.

(** ** Unit * number *)
Lemma scale_u_lost (a : unit_obj R) x : built a ->
  exists r, py_mul (VUnit a) (VNum x) = Ok r /\ py_mul (VNum x) (VUnit a) = Ok r /\ shape r = ([(un a, qc 1)], nil) /\
    (forall w y, positive w -> qty w (VUnit a) = Some y -> qty w r = Some (y * x / Rpower (w (un a)) (QcR (ev (ue a)) - 1))) /\
    (uv a <> 0 -> x <> 0 -> ((forall w y, positive w -> qty w (VUnit a) = Some y -> qty w r = Some (y * x)) <-> ev (ue a) = qc 1)).
Proof.
  intro ha. destruct (scale_u a x ha) as [e1 e2]. eexists. split; [exact e1|]. split; [exact e2|]. split; [reflexivity|].
  assert (Q : forall w y, positive w -> qty w (VUnit a) = Some y -> qty w (VUnit (UO (uc a) (uv a * x) (un a) (eint 1))) = Some (y * x / Rpower (w (un a)) (QcR (ev (ue a)) - 1))).
  { intros w y hw hy. cbn [qty uv un ue] in *. injection hy as <-. rewrite ev_eint. replace (IZR 1) with 1 by reflexivity. rewrite Rpower_1 by apply hw.
    rewrite (minus_power (w (un a)) (QcR (ev (ue a)))) by apply hw. pose proof (Rpower_pos (w (un a)) (QcR (ev (ue a)) - 1)). f_equal. field. lra. }
  split; [exact Q|]. intros hv hx. split.
  - intro h. pose proof (h (big (un a)) _ (big_pos _) eq_refl) as k. rewrite (Q (big (un a)) _ (big_pos _) eq_refl) in k.
    assert (inj : forall p q : R, Some p = Some q -> p = q) by (intros; congruence). apply inj in k. apply over_one in k; [| |apply Rpower_pos].
    + unfold big in k. rewrite String.eqb_refl in k. apply Rpower_one_iff in k; [|lra]. apply QcR_inj. rewrite QcR_qc. replace (IZR 1) with 1 by reflexivity. lra.
    + cbn [qty]. pose proof (Rpower_pos (big (un a) (un a)) (QcR (ev (ue a)))). repeat apply Rmult_integral_contrapositive_currified; lra.
  - intros e w y hw hy. rewrite (Q w y hw hy), e, QcR_qc. replace (IZR 1 - 1) with 0 by (replace (IZR 1) with 1 by reflexivity; lra). rewrite Rpower_O by apply hw. f_equal. field.
Qed.

(** ** Unit + number *)
Lemma add_num_exact (a : unit_obj R) x : built a ->
  exists r s, py_add (VUnit a) (VNum x) = Ok (VUnit r) /\ py_sub (VUnit a) (VNum x) = Ok (VUnit s) /\
    uc r = uc a /\ uc s = uc a /\ uv r = uv a + x /\ uv s = uv a - x /\ shape (VUnit r) = ([(un a, qc 1)], nil) /\ shape (VUnit s) = ([(un a, qc 1)], nil) /\
    (shape (VUnit r) = shape (VUnit a) <-> ev (ue a) = qc 1).
Proof.
  intro g. destruct (add_num a x g) as [e1 e2]. eexists. eexists. split; [exact e1|]. split; [exact e2|]. cbn [uc uv shape un ue].
  do 6 (split; [reflexivity|]). split; [|intros ->; reflexivity]. intro h. assert (K : forall (n : string) (p q : Qc), ([(n, p)], @nil (string * Qc)) = ([(n, q)], nil) -> p = q) by (intros; congruence). apply K in h. symmetry. exact h.
Qed.

(** ** Equality *)
Lemma set_sub_iff a b : set_sub a b = true <-> listed_in a b.
Proof.
  unfold set_sub, listed_in. rewrite forallb_forall. split; intros h x hx; specialize (h x hx).
  - apply existsb_exists in h. destruct h as [y [hy h]]. exists y. split; [exact hy|]. unfold bu_seteq, bu_eqb in h. rewrite !andb_true_iff, orb_true_iff, String.eqb_eq in h.
    destruct h as [[h1 h2] h3]. apply Qceqb_eq in h2. split; [exact h1|]. split; [exact h2|]. destruct h3 as [h3|h3]; [left; apply Qceqb_eq; exact h3|right; apply eqb_prop; exact h3].
  - destruct h as [y [hy [h1 [h2 h3]]]]. apply existsb_exists. exists y. split; [exact hy|]. unfold bu_seteq, bu_eqb. rewrite !andb_true_iff, orb_true_iff, String.eqb_eq.
    split; [split; [exact h1|apply Qceqb_eq; exact h2]|]. destruct h3 as [h3|h3]; [left; apply Qceqb_eq; exact h3|right; rewrite h3; apply eqb_reflx].
Qed.
Lemma multi_eq_exact (a b : multi_obj R) : py_eq (VMulti a) (VMulti b) = true <->
  mc a = mc b /\ mv a = mv b /\ listed_in (mtop a) (mtop b) /\ listed_in (mtop b) (mtop a) /\ listed_in (mbot a) (mbot b) /\ listed_in (mbot b) (mbot a).
Proof. rewrite multi_eq_char. unfold set_eqb. rewrite !andb_true_iff, !set_sub_iff. tauto. Qed.
Lemma eq_kinds (a b : pyval R) : py_eq a b = true ->
  match a, b with VNum x, VNum y => x = y | VNone, VNone | VObj, VObj => True | VUnit _, VUnit _ | VMulti _, VMulti _ => True | _, _ => False end.
Proof. destruct a, b; cbn; try discriminate; try exact (fun _ => I). intro h. apply Reqb_true. exact h. Qed.
Lemma trans_exact (a b c : pyval R) : py_eq a b = true -> py_eq b c = true ->
  (py_eq a c = false <-> exists u v w, a = VUnit u /\ b = VUnit v /\ c = VUnit w /\ uc v = UUnit /\ uc u <> UUnit /\ uc w <> UUnit /\ uc u <> uc w).
Proof.
  intros h1 h2. pose proof (eq_kinds a b h1) as k1. pose proof (eq_kinds b c h2) as k2.
  destruct a as [x| | |u|m], b as [x'| | |u'|m']; try contradiction; destruct c as [x''| | |u''|m'']; try contradiction.
  - subst. split; [intro h|intros [? [? [? [h _]]]]; discriminate]. rewrite (eq_refl_py (VNum x'')) in h. discriminate.
  - split; [intro h; discriminate|intros [? [? [? [h _]]]]; discriminate].
  - split; [intro h; discriminate|intros [? [? [? [h _]]]]; discriminate].
  - split.
    + intro h. exists u, u', u''. do 3 (split; [reflexivity|]). apply unit_eq_char in h1, h2. destruct h1 as [c1 [v1 [n1 e1]]], h2 as [c2 [v2 [n2 e2]]].
      assert (ne : ~ (uc u = uc u'' \/ uc u = UUnit \/ uc u'' = UUnit)).
      { intro k. assert (t : py_eq (VUnit u) (VUnit u'') = true) by (apply unit_eq_char; split; [exact k|split; [congruence|split; congruence]]). congruence. }
      assert (hu : uc u' = UUnit) by (destruct c1 as [c1|[c1|c1]], c2 as [c2|[c2|c2]]; try tauto; exfalso; apply ne; left; congruence). tauto.
    + intros [p [q [s [e1 [e2 [e3 [h3 [h4 [h5 h6]]]]]]]]]. injection e1 as <-. injection e2 as <-. injection e3 as <-. apply not_true_iff_false. intro k. apply unit_eq_char in k. tauto.
  - split; [|intros [? [? [? [h _]]]]; discriminate]. intro h. rewrite (trans_multi m m' m'' h1 h2) in h. discriminate.
Qed.
Lemma rmul_is_mul (a : multi_obj R) (u : unit_obj R) : multi_rmul a (VUnit u) = py_mul (VUnit u) (VMulti a).
Proof. reflexivity. Qed.
