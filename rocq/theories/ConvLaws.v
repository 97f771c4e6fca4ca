(** * ConvLaws: MultiUnit conversion keeps the quantity, round trips, refuses other dimensions *)
From Coq Require Import String Ascii List ZArith QArith Qcanon Bool Reals Qreals Lia Lra.
From Verif Require Import Py Num UnitsData UnitsStruct Units NumFacts Spec SpecFacts StructFacts CombineFacts CancelFacts
  ExpandFacts PrefixFacts SimplifyFacts OpFacts NamesFacts ClosureFacts FactorFacts LawFacts WitnessFacts ConvSpec ConvFacts.
Import ListNotations.
Local Open Scope string_scope.
Local Open Scope list_scope.
Local Open Scope R_scope.

Lemma same_dims_iff t b t' b' : same_dims (T := R) t b t' b' = true <-> forall c, class_total c t b = class_total c t' b'.
Proof.
  unfold same_dims. rewrite forallb_forall. split.
  - intros h c. apply Qceqb_eq, h. destruct c; cbn; tauto.
  - intros h c _. apply Qceqb_eq, h.
Qed.

(** One side, in all physical systems at once. *)
Lemma side_of_ok top bot us vs f : adm_half top -> adm_half bot -> psi_first top -> psi_first bot ->
  side_of tables0 top bot = Ok (us, vs, f) ->
  exists k, 0 < k /\
    (forall w, physical w -> msize w top bot = k * exp (Csum (fun c => QcR (class_total c us vs) * ln (wref w c)))) /\
    (degrees_linear top -> degrees_linear bot -> f = k).
Proof.
  intros a1 a2 s1 s2 h. unfold side_of in h.
  destruct (conv_prepare top bot) as [[[t0 b0] f0]|] eqn:e; cbn [bind] in h; [|discriminate].
  destruct (prepare _ _ _ _ _ a1 a2 s1 s2 e) as (t & b & n1 & n2 & r1 & r2 & fp & hw & hlin).
  destruct (side _ _ _ _ _ _ _ _ r1 r2 n1 n2 h) as (k & kp & hs & hv).
  exists (f0 * k). split; [apply Rmult_lt_0_compat; auto|]. split.
  - intros w hp. rewrite (hw w (ph_coherent w hp)), (hs w hp). ring.
  - intros d1 d2. destruct (hlin d1 d2). auto.
Qed.

(** ** C28 *)
Lemma convert_keeps (a : multi_obj R) s pt pb r : parse_units s = Ok (pt, pb) ->
  Forall convertible_half [mtop a; mbot a; pt; pb] -> multi_convert_to tables0 a s = Ok r ->
  mc r = mc a /\ mtop r = pt /\ mbot r = pb /\ forall w, physical w -> qty w (VMulti r) = qty w (VMulti a).
Proof.
  intros hp hc h. apply convert_eq in h. destruct h as (pt' & pb' & rt & rb & rf & lt & lb & lf & ep & e1 & e2 & _ & hd & hz & ->).
  rewrite hp in ep. injection ep as <- <-. cbn [mc mtop mbot qty mv]. split; [reflexivity|]. split; [reflexivity|]. split; [reflexivity|].
  intros w hw. inversion hc as [|x1 x2 [a1 [p1 l1]] hc1]; subst. inversion hc1 as [|x3 x4 [a2 [p2 l2]] hc2]; subst.
  inversion hc2 as [|x5 x6 [a3 [p3 l3]] hc3]; subst. inversion hc3 as [|x7 x8 [a4 [p4 l4]] _]; subst.
  destruct (side_of_ok _ _ _ _ _ a3 a4 p3 p4 e1) as (k & kp & hs & hv). rewrite (hv l3 l4) in *.
  destruct (side_of_ok _ _ _ _ _ a1 a2 p1 p2 e2) as (k' & kp' & hs' & hv'). rewrite (hv' l1 l2) in *.
  rewrite (hs w hw), (hs' w hw). f_equal.
  assert (E : Csum (fun c => QcR (class_total c lt lb) * ln (wref w c)) = Csum (fun c => QcR (class_total c rt rb) * ln (wref w c))).
  { apply Csum_ext. intro c. rewrite (proj1 (same_dims_iff _ _ _ _) hd c). reflexivity. }
  rewrite E. field. lra.
Qed.

(** ** C29 and C30: for every state of the tables *)
Lemma Rmult_div_nz x y z : z <> 0 -> x * (y / z) <> 0 -> y <> 0.
Proof. intros hz h ->. apply h. field. exact hz. Qed.
Lemma known_swap {T} (a b c d : list (unit_obj T)) : known_units (a ++ b ++ c ++ d) -> known_units (c ++ d ++ a ++ b).
Proof.
  intros h u hu. apply h. apply in_app_or in hu. destruct hu as [hu|hu]; [apply in_or_app; right; apply in_or_app; right; apply in_or_app; auto|].
  apply in_app_or in hu. destruct hu as [hu|hu]; [apply in_or_app; right; apply in_or_app; right; apply in_or_app; auto|].
  apply in_app_or in hu. destruct hu as [hu|hu]; [apply in_or_app; auto|apply in_or_app; right; apply in_or_app; auto].
Qed.
Lemma round_trip tb (a : multi_obj R) s s0 r : parse_units s0 = Ok (mtop a, mbot a) ->
  multi_convert_to tb a s = Ok r ->
  (forall r', multi_convert_to tb r s0 = Ok r' -> r' = a) /\
  (mv r <> 0 -> multi_convert_to tb r s0 = Ok a) /\
  (multi_convert_to tb r s0 = Ok a \/ multi_convert_to tb r s0 = Raise EZeroDivisionError).
Proof.
  intros h0 h. pose proof h as h'. apply convert_eq in h. destruct h as (pt & pb & rt & rb & rf & lt & lb & lf & ep & e1 & e2 & hk & hd & hz & ->).
  assert (back : lf <> 0 -> multi_convert_to tb (MO (mc a) (mv a * (lf / rf)) pt pb) s0 = Ok a).
  { intro z. apply convert_eq. exists (mtop a), (mbot a), lt, lb, lf, rt, rb, rf. cbn [mtop mbot mc mv].
    split; [exact h0|]. split; [exact e2|]. split; [exact e1|]. split; [apply known_swap; exact hk|].
    split; [apply same_dims_iff; intro c; symmetry; apply same_dims_iff; exact hd|]. split; [exact z|].
    destruct a as [c v t b]. cbn. f_equal. field. auto. }
  split; [|split].
  - intros r' hr. pose proof hr as hr'. apply convert_eq in hr. cbn [mtop mbot] in hr.
    destruct hr as (qt & qb & rt2 & rb2 & rf2 & lt2 & lb2 & lf2 & ep2 & e12 & e22 & _ & _ & hz2 & _).
    rewrite h0 in ep2. injection ep2 as <- <-. rewrite e2 in e12. injection e12 as <- <- <-. rewrite (back hz2) in hr'. congruence.
  - cbn [mv]. intro hv. apply back. exact (Rmult_div_nz (mv a) lf rf hz hv).
  - destruct (Req_dec lf 0) as [z|z]; [right|left; auto]. subst lf.
    unfold multi_convert_to. rewrite h0. cbn [bind fst snd mtop mbot]. unfold side_of in e1, e2.
    destruct (conv_prepare (mtop a) (mbot a)) as [[[x1 x2] x3]|]; cbn [bind] in *; [|discriminate].
    destruct (conv_prepare pt pb) as [[[y1 y2] y3]|]; cbn [bind] in *; [|discriminate].
    rewrite e1. cbn [bind]. rewrite e2. cbn [bind].
    destruct (proj2 (classes_known_ok _) (known_swap _ _ _ _ hk)) as [cs hcs]. rewrite hcs. cbn [bind].
    assert (hd' : same_dims rt rb lt lb = true) by (apply same_dims_iff; intro c; symmetry; apply same_dims_iff; exact hd).
    rewrite hd', pydiv_0. reflexivity.
Qed.
Lemma path_independent tb (a : multi_obj R) s1 s2 r1 r2 :
  multi_convert_to tb a s1 = Ok r1 -> multi_convert_to tb r1 s2 = Ok r2 -> multi_convert_to tb a s2 = Ok r2.
Proof.
  intros h1 h2. apply convert_eq in h1, h2.
  destruct h1 as (pt & pb & rt & rb & rf & lt & lb & lf & ep & e1 & e2 & hk & hd & hz & ->). cbn [mtop mbot mc mv] in h2.
  destruct h2 as (qt & qb & rt2 & rb2 & rf2 & lt2 & lb2 & lf2 & ep2 & e12 & e22 & hk2 & hd2 & hz2 & ->).
  rewrite e1 in e22. injection e22 as <- <- <-. apply convert_eq. exists qt, qb, rt2, rb2, rf2, lt, lb, lf.
  split; [exact ep2|]. split; [exact e12|]. split; [exact e2|]. split.
  - intros u hu. apply in_app_or in hu. destruct hu as [hu|hu]; [apply hk2, in_or_app; auto|].
    apply in_app_or in hu. destruct hu as [hu|hu]; [apply hk2, in_or_app; right; apply in_or_app; auto|].
    apply hk. apply in_or_app; right; apply in_or_app; right; exact hu.
  - split; [|split; [exact hz2|f_equal; field; auto]].
    apply same_dims_iff. intro c. rewrite (proj1 (same_dims_iff _ _ _ _) hd c). apply same_dims_iff. exact hd2.
Qed.
