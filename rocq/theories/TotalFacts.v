(** * TotalFacts: totals of lists *)
From Coq Require Import String Ascii List ZArith QArith Qcanon Bool Reals Lra Permutation.
From Verif Require Import Py Num UnitsData UnitsStruct Units Spec LawFacts OpFacts WitnessFacts OpPropFacts TagFacts DistribSpec DistribFacts TotalSpec.
Import ListNotations.
Local Open Scope string_scope.
Local Open Scope list_scope.
Local Open Scope R_scope.

Lemma total_raise l e : fold_left (fun acc y => let* v := acc in py_add (T := R) v y) l (Raise e) = Raise e.
Proof. induction l as [|y l IH]; [reflexivity|exact IH]. Qed.
Lemma total_cons x y l : total x (y :: l) = let* v := py_add x y in total v l.
Proof. unfold total. cbn [fold_left bind]. destruct (py_add x y) as [v|e]; cbn [bind]; [reflexivity|apply total_raise]. Qed.

Lemma factors_iff a b : half_eqb a b = true <-> factors a = factors b.
Proof.
  rewrite <- hs_iff. split.
  - induction 1 as [|x y a b [h1 h2] h IH]; [reflexivity|]. unfold factors in *. cbn [map]. rewrite h1, h2, IH. reflexivity.
  - revert b. induction a as [|x a IH]; intros [|y b] h; try discriminate; [constructor|]. unfold factors in h. cbn [map] in h. injection h as h1 h2 h3.
    constructor; [split; assumption|]. apply IH. exact h3.
Qed.
Lemma mcls_iff a b : mcls_eqb a b = true <-> a = b.
Proof.
  destruct a as [|x], b as [|y]; cbn; split; intro h; try reflexivity; try discriminate.
  - apply String.eqb_eq in h. congruence.
  - injection h as ->. apply String.eqb_refl.
Qed.

Lemma step_multi (a : multi_obj R) y r : py_add (VMulti a) y = Ok r <->
  exists b, y = VMulti b /\ mc b = mc a /\ like_multi a b /\ r = VMulti (MO MMulti (mv a + mv b) (mtop a) (mbot a)).
Proof.
  cbn [py_add]. split.
  - intro h. destruct y as [x| | |u|b]; try discriminate. exists b. cbn [multi_add] in h.
    destruct (mcls_eqb (mc a) (mc b)) eqn:e1; [|discriminate]. destruct (half_eqb (mtop a) (mtop b)) eqn:e2; [|discriminate]. destruct (half_eqb (mbot a) (mbot b)) eqn:e3; [|discriminate].
    apply mcls_iff in e1. apply factors_iff in e2. apply factors_iff in e3. cbn in h. injection h as <-. refine (conj eq_refl (conj (eq_sym e1) (conj (conj e2 e3) eq_refl))).
  - intros (b & -> & h1 & (h2 & h3) & ->). cbn [multi_add]. symmetry in h1. apply mcls_iff in h1. apply factors_iff in h2. apply factors_iff in h3. rewrite h1, h2, h3. reflexivity.
Qed.

Lemma total_plain l : forall a r, mc a = MMulti -> (total (VMulti a) l = Ok r <->
  exists ms, l = map VMulti ms /\ Forall (fun c => mc c = MMulti /\ like_multi a c) ms /\ r = VMulti (MO MMulti (mv a + sum_of (map mv ms)) (mtop a) (mbot a))).
Proof.
  induction l as [|y l IH]; intros a r ha.
  - cbn. split.
    + intro h. injection h as <-. exists nil. cbn. rewrite Rplus_0_r. refine (conj eq_refl (conj (Forall_nil _) _)). destruct a. cbn in *. subst. reflexivity.
    + intros ([|m ms] & h & _ & ->); [|discriminate]. cbn. rewrite Rplus_0_r. destruct a. cbn in *. subst. reflexivity.
  - rewrite total_cons. split.
    + destruct (py_add (VMulti a) y) as [v|e] eqn:es; [|discriminate]. cbn [bind]. intro h. apply step_multi in es. destruct es as (b & -> & h1 & h2 & ->).
      apply IH in h; [|reflexivity]. destruct h as (ms & -> & hf & ->). exists (b :: ms). refine (conj eq_refl (conj _ _)).
      * constructor; [split; [congruence|exact h2]|exact hf].
      * cbn. rewrite Rplus_assoc. reflexivity.
    + intros ([|b ms] & h & hf & ->); [discriminate|]. injection h as -> ->. inversion hf as [|? ? [h1 h2] hf']; subst.
      rewrite (proj2 (step_multi a (VMulti b) _) (ex_intro _ b (conj eq_refl (conj (eq_trans h1 (eq_sym ha)) (conj h2 eq_refl))))). cbn [bind].
      apply IH; [reflexivity|]. exists ms. refine (conj eq_refl (conj hf' _)). cbn. rewrite Rplus_assoc. reflexivity.
Qed.

Lemma total_multi (a : multi_obj R) y l r : total (VMulti a) (y :: l) = Ok r <->
  exists b ms, y = VMulti b /\ l = map VMulti ms /\ mc b = mc a /\ like_multi a b /\ Forall (fun c => mc c = MMulti /\ like_multi a c) ms /\
    r = VMulti (MO MMulti (mv a + (mv b + sum_of (map mv ms))) (mtop a) (mbot a)).
Proof.
  rewrite total_cons. split.
  - destruct (py_add (VMulti a) y) as [v|e] eqn:es; [|discriminate]. cbn [bind]. intro h. apply step_multi in es. destruct es as (b & -> & h1 & h2 & ->).
    apply total_plain in h; [|reflexivity]. destruct h as (ms & -> & hf & ->). exists b, ms. cbn. rewrite Rplus_assoc. refine (conj eq_refl (conj eq_refl (conj h1 (conj h2 (conj hf eq_refl))))).
  - intros (b & ms & -> & -> & h1 & h2 & hf & ->).
    rewrite (proj2 (step_multi a (VMulti b) _) (ex_intro _ b (conj eq_refl (conj h1 (conj h2 eq_refl))))). cbn [bind].
    apply total_plain; [reflexivity|]. exists ms. refine (conj eq_refl (conj hf _)). cbn. rewrite Rplus_assoc. reflexivity.
Qed.

Lemma sum_perm l l' : Permutation l l' -> sum_of l = sum_of l'.
Proof. unfold sum_of. induction 1; cbn [fold_right] in *; lra. Qed.

Lemma total_perm (a b : multi_obj R) l l' x : Permutation (a :: l) (b :: l') -> mc a = MMulti -> total (VMulti a) (map VMulti l) = Ok x ->
  exists m m', x = VMulti m /\ total (VMulti b) (map VMulti l') = Ok (VMulti m') /\ mv m' = mv m /\ mc m' = mc m /\ like_multi m m'.
Proof.
  intros hp ha h. apply total_plain in h; [|exact ha]. destruct h as (ms & e & hf & ->).
  assert (el : ms = l) by (clear -e; revert ms e; induction l as [|y l IH]; intros [|m ms] e; try discriminate; [reflexivity|]; cbn in e; injection e as -> e; f_equal; apply IH; exact e).
  subst ms. assert (hall : Forall (fun c => mc c = MMulti /\ like_multi a c) (a :: l)) by (constructor; [split; [exact ha|split; reflexivity]|exact hf]).
  pose proof (Permutation_Forall hp hall) as hb. inversion hb as [|? ? [hb1 [hb2 hb3]] hl]; subst.
  eexists _, _. refine (conj eq_refl (conj _ _)).
  - apply total_plain; [exact hb1|]. exists l'. refine (conj eq_refl (conj _ eq_refl)). rewrite Forall_forall in hl |- *. intros c hc. destruct (hl c hc) as [h1 [h2 h3]]. split; [exact h1|]. split; congruence.
  - cbn. pose proof (sum_perm _ _ (Permutation_map mv hp)) as hs. cbn in hs. refine (conj (eq_sym hs) (conj eq_refl (conj hb2 hb3))).
Qed.

(** ** Units *)
Lemma ucls_iff c d : ucls_eqb c d = true <-> c = d.
Proof. split; [destruct c, d; cbn; intro h; try reflexivity; discriminate|intros ->; destruct d; reflexivity]. Qed.
Lemma step_unit (u w : unit_obj R) r : built u -> py_add (VUnit u) (VUnit w) = Ok r <->
  (uc u = UUnit \/ uc w = uc u) /\ un u = un w /\ ev (ue u) = ev (ue w) /\ r = VUnit (UO (uc u) (uv u + uv w) (un u) (ue u)).
Proof.
  intro hu. split.
  - intro h. change (plus_or_minus false (VUnit u) (VUnit w) = Ok r) in h. destruct (sum_unit false u w r hu h) as (h1 & h2 & h3 & h4).
    refine (conj _ (conj h2 (conj h3 h4))). unfold ucls_sub in h1. apply orb_true_iff in h1. rewrite !ucls_iff in h1. exact h1.
  - intros (h1 & h2 & h3 & ->). cbn [py_add unit_addsub]. unfold ucls_sub. rewrite <- !ucls_iff in h1. apply orb_true_iff in h1. apply eeqb_iff in h3. rewrite h1, h2, String.eqb_refl, h3. cbn.
    rewrite <- h2. rewrite (rebuild u _ _ hu). reflexivity.
Qed.
Lemma built_same (u : unit_obj R) v e : built u -> built (UO (uc u) v (un u) e).
Proof. intro h. exists v, (un u), e. cbn [uc]. apply rebuild. exact h. Qed.

Lemma total_unit l : forall u r, built u -> (total (VUnit u) (map VUnit l) = Ok r <->
  Forall (fun w => (uc u = UUnit \/ uc w = uc u) /\ un u = un w /\ ev (ue u) = ev (ue w)) l /\ r = VUnit (UO (uc u) (uv u + sum_of (map uv l)) (un u) (ue u))).
Proof.
  induction l as [|w l IH]; intros u r hu.
  - cbn. rewrite Rplus_0_r. split.
    + intro h. injection h as <-. split; [constructor|]. destruct u; reflexivity.
    + intros [_ ->]. destruct u; reflexivity.
  - cbn [map]. rewrite total_cons. split.
    + destruct (py_add (VUnit u) (VUnit w)) as [v|e] eqn:es; [|discriminate]. cbn [bind]. intro h. apply step_unit in es; [|exact hu]. destruct es as (h1 & h2 & h3 & ->).
      apply IH in h; [|apply built_same; exact hu]. destruct h as (hf & ->). split.
      * constructor; [refine (conj h1 (conj h2 h3))|exact hf].
      * cbn. rewrite Rplus_assoc. reflexivity.
    + intros (hf & ->). inversion hf as [|? ? h1 hf']; subst. destruct h1 as (h1 & h2 & h3).
      rewrite (proj2 (step_unit u w _ hu) (conj h1 (conj h2 (conj h3 eq_refl)))). cbn [bind].
      apply IH; [apply built_same; exact hu|]. split; [exact hf'|]. cbn. rewrite Rplus_assoc. reflexivity.
Qed.
Lemma total_unit_perm (u w : unit_obj R) l l' : Permutation (u :: l) (w :: l') -> Forall (fun z => built z /\ like_unit u z) (u :: l) ->
  exists m m', total (VUnit u) (map VUnit l) = Ok (VUnit m) /\ total (VUnit w) (map VUnit l') = Ok (VUnit m') /\ uv m = uv m' /\ like_unit m m'.
Proof.
  intros hp hall. pose proof (Permutation_Forall hp hall) as hb. inversion hall as [|? ? [hu _] hl]; subst. inversion hb as [|? ? [hw [hw1 [hw2 hw3]]] hl']; subst.
  eexists _, _. refine (conj _ (conj _ _)).
  - apply total_unit; [exact hu|]. refine (conj _ eq_refl). rewrite Forall_forall in hl |- *. intros c hc. destruct (hl c hc) as [_ [h1 [h2 h3]]]. refine (conj (or_intror (eq_sym h1)) (conj h2 h3)).
  - apply total_unit; [exact hw|]. refine (conj _ eq_refl). rewrite Forall_forall in hl' |- *. intros c hc. destruct (hl' c hc) as [_ [h1 [h2 h3]]]. refine (conj (or_intror _) (conj _ _)); congruence.
  - cbn. pose proof (sum_perm _ _ (Permutation_map uv hp)) as hs. cbn in hs. refine (conj hs (conj hw1 (conj hw2 hw3))).
Qed.

(** ** The built-in sum *)
Lemma total_num l : forall x, (exists xs, l = map VNum xs /\ total (VNum x) l = Ok (VNum (x + sum_of xs))) \/ ((forall xs, l <> map VNum xs) /\ total (VNum x) l = Raise ETypeError).
Proof.
  induction l as [|y l IH]; intro x.
  - left. exists nil. cbn. rewrite Rplus_0_r. split; reflexivity.
  - rewrite total_cons. destruct y as [z| | |u|b]; try (right; split; [intros [|? ?]; discriminate|reflexivity]). cbn [py_add bind].
    destruct (IH (x + z)) as [(xs & -> & h)|(hn & h)].
    + left. exists (z :: xs). split; [reflexivity|]. cbn [sum_of fold_right]. change (nadd x z) with (x + z). rewrite h. unfold sum_of. rewrite Rplus_assoc. reflexivity.
    + right. split; [|exact h]. intros [|z' xs]; [discriminate|]. intro e. injection e as _ e. exact (hn xs e).
Qed.
Lemma builtin_numbers xs : builtin_sum (map VNum xs) = Ok (VNum (sum_of xs)).
Proof.
  unfold builtin_sum. destruct (total_num (map VNum xs) 0) as [(ys & e & h)|(hn & _)]; [|exfalso; exact (hn xs eq_refl)].
  assert (ys = xs) by (clear h; revert ys e; induction xs as [|z xs IH]; intros [|y ys] e; try discriminate; [reflexivity|]; cbn in e; injection e as -> e; f_equal; apply IH; exact e).
  subst ys. rewrite h, Rplus_0_l. reflexivity.
Qed.
Lemma builtin_else l : (forall xs, l <> map VNum xs) -> builtin_sum l = Raise ETypeError.
Proof. intro h. unfold builtin_sum. destruct (total_num l 0) as [(xs & e & _)|(_ & e)]; [destruct (h xs e)|exact e]. Qed.

Lemma three_fail : exists a b c s, mc a = MSub "HeatTransferCoefficient" /\ mc b = mc a /\ mc c = mc a /\ like_multi a b /\ like_multi a c /\
  total (VMulti a) [VMulti b] = Ok s /\ total (VMulti a) [VMulti b; VMulti c] = Raise ETypeError.
Proof.
  set (o (v : R) := MO (MSub "HeatTransferCoefficient") v [BU "W" (eint 1)] [BU "m" (eint 2); BU "K" (eint 1)]).
  exists (o 1), (o 2), (o 3). eexists. refine (conj eq_refl (conj eq_refl (conj eq_refl (conj (conj eq_refl eq_refl) (conj (conj eq_refl eq_refl) (conj _ eq_refl)))))). reflexivity.
Qed.
Lemma unit_order_fail : exists u w s, built u /\ built w /\ un u = un w /\ ev (ue u) = ev (ue w) /\ total (VUnit u) [VUnit w] = Ok s /\ total (VUnit w) [VUnit u] = Raise ETypeError.
Proof.
  exists (UO UUnit 1 "m" (eint 1)), (UO Length 2 "m" (eint 1)). eexists. refine (conj _ (conj _ (conj eq_refl (conj eq_refl (conj eq_refl eq_refl))))).
  - exists 1, "m", (eint 1). reflexivity.
  - exists 2, "m", (eint 1). reflexivity.
Qed.
Lemma builtin_fail : exists u, built u /\ builtin_sum [VUnit u; VUnit u] = Raise ETypeError.
Proof. exists (UO Length 1 "m" (eint 1)). split; [exists 1, "m", (eint 1); reflexivity|reflexivity]. Qed.
