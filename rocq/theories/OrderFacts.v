(** * OrderFacts: proofs about the order of factors *)
From Coq Require Import String Ascii List ZArith QArith Qcanon Bool Reals Qreals Lia Lra Permutation.
From Verif Require Import Py Num UnitsData UnitsStruct Units NumFacts Spec SpecFacts StructFacts OpFacts ClosureFacts LawFacts OpSpec OpExactFacts PrefixSpec PassSpec
  ConvSpec ReadSpec ReadFacts TextSpec TextFacts TextPropFacts RefuseSpec RefuseFacts WitnessFacts PropFacts FactorFacts OpPropFacts OrderSpec.
Import ListNotations.
Local Open Scope string_scope.
Local Open Scope list_scope.
Local Open Scope R_scope.

Lemma reordered_sym a b : reordered a b -> reordered b a.
Proof. intros (h1 & h2 & h3 & h4). repeat split; try congruence; apply Permutation_sym; assumption. Qed.

(** ** Texts *)
Lemma text_reordered c (v : R) top bot top' bot' : top <> nil -> (forall f, In f (top ++ bot) -> factor_ok f) ->
  Permutation top top' -> Permutation bot bot' ->
  exists a b, mk_multi c v (unit_text top bot) = Ok a /\ mk_multi c v (unit_text top' bot') = Ok b /\ reordered a b.
Proof.
  intros hn h pt pb. assert (hn' : top' <> nil). { intros ->. apply hn. apply Permutation_nil, Permutation_sym. exact pt. }
  assert (h' : forall f, In f (top' ++ bot') -> factor_ok f).
  { intros f hf. apply h. apply (Permutation_in f (Permutation_sym (Permutation_app pt pb))). exact hf. }
  exists (MO c v (map parsed top) (map parsed bot)), (MO c v (map parsed top') (map parsed bot')).
  unfold mk_multi. rewrite (proj2 (String.eqb_neq _ _) (unit_text_ne top bot hn h)), (proj2 (String.eqb_neq _ _) (unit_text_ne top' bot' hn' h')).
  rewrite (parse_text top bot hn h), (parse_text top' bot' hn' h'). cbn [bind].
  split; [reflexivity|]. split; [reflexivity|]. repeat split; apply Permutation_map; assumption.
Qed.

(** ** Equality and the quantity *)
Lemma listed_perm a b : Permutation a b -> listed_in a b.
Proof. intros p x hx. exists x. split; [exact (Permutation_in x p hx)|]. repeat split. right. reflexivity. Qed.
Lemma usize_perm w a b : Permutation a b -> usize w a = usize w b.
Proof. induction 1; cbn [usize]; try congruence. ring. Qed.
Lemma reordered_equal a b : reordered a b -> py_eq (VMulti a) (VMulti b) = true /\ forall w, qty w (VMulti a) = qty w (VMulti b).
Proof.
  intros (h1 & h2 & h3 & h4). split.
  - apply multi_eq_exact. repeat split; auto; apply listed_perm; auto; apply Permutation_sym; auto.
  - intro w. cbn [qty]. unfold msize. rewrite h2, (usize_perm w _ _ h3), (usize_perm w _ _ h4). reflexivity.
Qed.

(** ** Sums *)
Lemma reordered_add a b : reordered a b ->
  ((exists r, py_add (VMulti a) (VMulti b) = Ok r) <-> shape (VMulti a) = shape (VMulti b)) /\
  ((exists r, py_sub (VMulti a) (VMulti b) = Ok r) <-> shape (VMulti a) = shape (VMulti b)) /\
  (shape (VMulti a) <> shape (VMulti b) -> py_add (VMulti a) (VMulti b) = Raise ETypeError /\ py_sub (VMulti a) (VMulti b) = Raise ETypeError).
Proof.
  intros (h1 & _ & _ & _). assert (hc : mcls_eqb (mc a) (mc b) = true) by (apply mcls_eqb_eq; exact h1).
  assert (k : half_eqb (mtop a) (mtop b) && half_eqb (mbot a) (mbot b) = true <-> shape (VMulti a) = shape (VMulti b)).
  { rewrite andb_true_iff, !half_eqb_same. cbn [shape]. split; [intros [-> ->]; reflexivity|intro h; split; congruence]. }
  cbn [py_add py_sub multi_add multi_sub]. rewrite hc.
  destruct (half_eqb (mtop a) (mtop b) && half_eqb (mbot a) (mbot b)).
  - assert (e : shape (VMulti a) = shape (VMulti b)) by (apply k; reflexivity). repeat split; intros; eauto; contradiction.
  - assert (e : shape (VMulti a) <> shape (VMulti b)) by (intro h; apply k in h; discriminate).
    repeat split; intros; try contradiction; match goal with h : exists _, _ |- _ => destruct h; discriminate end.
Qed.

(** ** Products *)
Lemma adm_perm a b : Permutation a b -> adm_half a -> adm_half b.
Proof. intros p h. unfold adm_half in *. intros x hx. apply h. exact (Permutation_in x (Permutation_sym p) hx). Qed.
Lemma reordered_mul a b o : reordered a b -> adm_multi a -> adm_multi o ->
  exists r r', py_mul (VMulti a) (VMulti o) = Ok r /\ py_mul (VMulti b) (VMulti o) = Ok r' /\
    forall w, coherent w -> qty w r = qty w r'.
Proof.
  intros h ha ho. pose proof (reordered_equal a b h) as [_ hq]. destruct h as (h1 & h2 & h3 & h4).
  assert (hb : adm_multi b) by (destruct ha; split; eapply adm_perm; eauto).
  destruct (mul_mm a o ha ho) as [r [e [_ g]]]. destruct (mul_mm b o hb ho) as [r' [e' [_ g']]].
  exists (VMulti r), (VMulti r'). split; [exact e|]. split; [exact e'|]. intros w hw.
  rewrite (g w _ _ hw eq_refl eq_refl). specialize (hq w). symmetry. apply (g' w _ _ hw); [symmetry; exact hq|reflexivity].
Qed.

Lemma reordered_div a b o : reordered a b -> adm_multi a -> adm_multi o -> mv o <> 0 ->
  exists r r', py_div (VMulti a) (VMulti o) = Ok r /\ py_div (VMulti b) (VMulti o) = Ok r' /\
    forall w, coherent w -> qty w r = qty w r'.
Proof.
  intros h ha ho hz. pose proof (reordered_equal a b h) as [_ hq]. destruct h as (h1 & h2 & h3 & h4).
  assert (hb : adm_multi b) by (destruct ha; split; eapply adm_perm; eauto).
  destruct (div_mm a o ha ho hz) as [r [e g]]. destruct (div_mm b o hb ho hz) as [r' [e' g']].
  exists r, r'. split; [exact e|]. split; [exact e'|]. intros w hw.
  rewrite (g w _ _ hw eq_refl eq_refl). specialize (hq w). symmetry. apply (g' w _ _ hw); [symmetry; exact hq|reflexivity].
Qed.

(** ** Conversions *)
Lemma marked_plain l : (forall x, In x l -> is_derived x = false) -> marked l = map (pair false) l.
Proof.
  induction l as [|x l IH]; intro h; [reflexivity|]. cbn [marked map]. rewrite (h x) by (left; reflexivity).
  rewrite IH by (intros y hy; apply h; right; exact hy). reflexivity.
Qed.
Lemma marked_perm a b : Permutation a b -> none_opened (map bname a) -> Permutation (marked (rooted a)) (marked (rooted b)).
Proof.
  intros p h. assert (g : forall l, Permutation a l -> forall x, In x (rooted l) -> is_derived x = false).
  { intros l q x hx. unfold rooted in hx. apply in_map_iff in hx. destruct hx as [y [<- hy]]. unfold is_derived. cbn [bname].
    destruct (in_dec string_dec (root (bname y)) derived_names) as [i|]; [|reflexivity]. exfalso. apply (h (bname y)); [|exact i].
    apply in_map. exact (Permutation_in y (Permutation_sym q) hy). }
  rewrite (marked_plain (rooted a)) by (apply g, Permutation_refl). rewrite (marked_plain (rooted b)) by (apply g; exact p).
  apply Permutation_map. unfold rooted. apply Permutation_map. exact p.
Qed.
Lemma mul_perm (a b : list R) : Permutation a b -> fold_right Rmult 1 a = fold_right Rmult 1 b.
Proof. induction 1; cbn [fold_right]; try congruence. ring. Qed.
Lemma sum_perm (a b : list Qc) : Permutation a b -> fold_right Qcplus (qc 0) a = fold_right Qcplus (qc 0) b.
Proof. induction 1; cbn [fold_right]; try congruence. ring. Qed.
Lemma seen_perm a b : Permutation a b -> none_opened (map bname a) -> seen a = seen b.
Proof. intros p h. unfold seen. rewrite (usize_perm _ _ _ p). f_equal. apply mul_perm, Permutation_map, marked_perm; assumption. Qed.
Lemma seen_dim_perm a b c : Permutation a b -> none_opened (map bname a) -> seen_dim a c = seen_dim b c.
Proof. intros p h. unfold seen_dim. apply sum_perm, Permutation_map, marked_perm; assumption. Qed.
Lemma understood_perm a b : Permutation a b -> none_opened (map bname a) -> understood a -> understood b.
Proof.
  intros p h [u1 u2]. split.
  - intros x hx. apply u1. exact (Permutation_in x (Permutation_sym p) hx).
  - intros k x hx. apply u2. exact (Permutation_in _ (Permutation_sym (marked_perm a b p h)) hx).
Qed.
Lemma none_app (a b : half) : none_opened (map bname (a ++ b)) -> none_opened (map bname a) /\ none_opened (map bname b).
Proof. intro h. rewrite map_app in h. split; intros n hn; apply h, in_or_app; auto. Qed.
Lemma reordered_convert a b top bot top' bot' r : reordered a b -> none_opened (names_of a) ->
  top <> nil -> (forall f, In f (top ++ bot) -> factor_ok f) -> Permutation top top' -> Permutation bot bot' ->
  none_opened (map fst (top ++ bot)) ->
  multi_convert_to tables0 a (unit_text top bot) = Ok r ->
  exists r', multi_convert_to tables0 b (unit_text top' bot') = Ok r' /\ reordered r r'.
Proof.
  intros (h1 & h2 & h3 & h4) na hn h pt pb nt e.
  assert (hn' : top' <> nil). { intros ->. apply hn. apply Permutation_nil, Permutation_sym. exact pt. }
  assert (h' : forall f, In f (top' ++ bot') -> factor_ok f).
  { intros f hf. apply h. apply (Permutation_in f (Permutation_sym (Permutation_app pt pb))). exact hf. }
  apply none_app in na. destruct na as [n1 n2].
  assert (nt' : none_opened (map bname (map parsed top ++ map parsed bot))).
  { rewrite <- map_app, map_map. exact nt. }
  apply none_app in nt'. destruct nt' as [n3 n4].
  pose proof (Permutation_map parsed pt) as qt. pose proof (Permutation_map parsed pb) as qb.
  apply (convert_exact a _ _ _ r (parse_text top bot hn h)) in e.
  destruct e as (u1 & u2 & u3 & u4 & z1 & z2 & z3 & hd & ->).
  eexists. split.
  - apply (convert_exact b _ _ _ _ (parse_text top' bot' hn' h')).
    rewrite <- (seen_perm _ _ h4 n2), <- (seen_perm _ _ qt n3), <- (seen_perm _ _ qb n4).
    do 4 (split; [eapply understood_perm; eassumption|]). do 3 (split; [assumption|]). split; [|reflexivity].
    intro c. rewrite <- (seen_dim_perm _ _ c h3 n1), <- (seen_dim_perm _ _ c h4 n2), <- (seen_dim_perm _ _ c qt n3), <- (seen_dim_perm _ _ c qb n4). apply hd.
  - split; [exact h1|]. cbn [mv mtop mbot]. split; [|split; assumption]. rewrite h2. unfold seen_size.
    rewrite <- (seen_perm _ _ h3 n1), <- (seen_perm _ _ h4 n2), <- (seen_perm _ _ qt n3), <- (seen_perm _ _ qb n4). reflexivity.
Qed.

(** ** Witnesses *)
Definition w_pa : multi_obj R := MO MMulti 3 [BU "W" (eflt (qc 1)); BU "Pa" (eflt (qc 1))] nil.
Definition pa_w : multi_obj R := MO MMulti 3 [BU "Pa" (eflt (qc 1)); BU "W" (eflt (qc 1))] nil.
Lemma w_pa_nonzero : seen (mtop w_pa) <> 0.
Proof.
  apply seen_nonzero. change (marked (rooted (mtop w_pa))) with [(false, BU "W" (eflt (qc 1))); (true, BU "Pa" (eflt (qc 1)))].
  intros k [<-|[<-|[]]]; unfold number_of; cbn [fst snd]; unfold stands; cbn; rewrite ?Q2R1, ?one_pow; lra.
Qed.
Lemma order_matters : mk_multi MMulti 3 "W*Pa" = Ok w_pa /\ mk_multi MMulti 3 "Pa*W" = Ok pa_w /\ reordered w_pa pa_w /\
  multi_convert_to tables0 w_pa "W*Pa" = Ok w_pa /\ multi_convert_to tables0 pa_w "W*Pa" = Raise EKeyError.
Proof.
  split; [reflexivity|]. split; [reflexivity|]. split; [repeat split; repeat constructor|]. split.
  - apply (convert_exact w_pa "W*Pa" (mtop w_pa) nil); [reflexivity|].
    assert (u : understood (mtop w_pa)) by (apply known_understood; reflexivity).
    assert (n : understood nil) by (apply known_understood; reflexivity).
    assert (z : seen nil <> 0) by (unfold seen; cbn; lra).
    do 2 (split; [assumption|]). do 2 (split; [assumption|]). split; [exact z|]. split; [exact w_pa_nonzero|]. split; [exact z|]. split; [reflexivity|].
    unfold seen_size. replace (seen (mtop w_pa) / seen (mbot w_pa) / (seen (mtop w_pa) / seen nil)) with 1.
    + cbn [mv mc w_pa]. rewrite Rmult_1_r. reflexivity.
    + cbn [mbot w_pa]. field. split; [exact z|exact w_pa_nonzero].
  - apply (convert_error pa_w "W*Pa" (mtop w_pa) nil); [reflexivity|]. apply refused_unit. reflexivity.
Qed.
Definition kg_m : multi_obj R := MO MMulti 2 [BU "kg" (eflt (qc 1)); BU "m" (eflt (qc 1))] [BU "s" (eflt (qc 2))].
Definition m_kg : multi_obj R := MO MMulti 2 [BU "m" (eflt (qc 1)); BU "kg" (eflt (qc 1))] [BU "s" (eflt (qc 2))].
Lemma order_sums : mk_multi MMulti 2 "kg*m/s^2" = Ok kg_m /\ mk_multi MMulti 2 "m*kg/s^2" = Ok m_kg /\ reordered kg_m m_kg /\
  py_add (VMulti kg_m) (VMulti m_kg) = Raise ETypeError /\ py_sub (VMulti kg_m) (VMulti m_kg) = Raise ETypeError /\
  none_opened (names_of kg_m) /\ adm_multi kg_m /\ exists r, multi_convert_to tables0 kg_m "m*lb/s^2" = Ok r.
Proof.
  split; [reflexivity|]. split; [reflexivity|]. split; [repeat split; repeat constructor|]. split; [reflexivity|]. split; [reflexivity|]. split.
  - intros n hn. cbn in hn. repeat (destruct hn as [<-|hn]; [cbn; intuition discriminate|]). destruct hn.
  - split; [split; adm|]. apply (convert_iff kg_m "m*lb/s^2" [BU "m" (eflt (qc 1)); BU "lb" (eflt (qc 1))] [BU "s" (eflt (qc 2))]); [reflexivity|].
    do 4 (split; [apply known_understood; reflexivity|]).
    split; [|split; [|split]].
    1,2,3: apply seen_nonzero; intros k hk; cbn in hk; repeat (destruct hk as [<-|hk]; [unfold number_of; cbn [fst snd]; unfold stands; cbn|]); try destruct hk.
    all: try (intro c; destruct c; reflexivity).
    all: unfold Rpower; apply Rgt_not_eq, exp_pos.
Qed.
Lemma sum_refuted : exists a b : multi_obj R, reordered a b /\ py_eq (VMulti a) (VMulti b) = true /\
  py_add (VMulti a) (VMulti b) = Raise ETypeError /\ py_sub (VMulti a) (VMulti b) = Raise ETypeError.
Proof.
  destruct order_sums as (_ & _ & h & h1 & h2 & _). exists kg_m, m_kg. split; [exact h|]. split; [apply (reordered_equal _ _ h)|]. auto.
Qed.
Lemma convert_refuted : exists a b : multi_obj R, mk_multi MMulti 3 "W*Pa" = Ok a /\ mk_multi MMulti 3 "Pa*W" = Ok b /\
  reordered a b /\ py_eq (VMulti a) (VMulti b) = true /\
  multi_convert_to tables0 a "W*Pa" = Ok a /\ multi_convert_to tables0 b "W*Pa" = Raise EKeyError.
Proof.
  destruct order_matters as (h1 & h2 & h & h3 & h4). exists w_pa, pa_w. do 3 (split; [assumption|]). split; [apply (reordered_equal _ _ h)|]. auto.
Qed.
