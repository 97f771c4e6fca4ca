(** * CancelFacts: cancel_units preserves the unit and normalises it *)
From Coq Require Import String Ascii List ZArith QArith Qcanon Bool Reals Qreals Lia Lra Permutation.
From Verif Require Import Py Num UnitsData UnitsStruct Units NumFacts Spec StructFacts CombineFacts.
Import ListNotations.
Local Open Scope string_scope.
Local Open Scope list_scope.
Local Open Scope R_scope.

Definition nz (u : bu) : bool := negb (e_is (bexp u) 0).
Lemma nz_true u : nz u = true <-> QcR (ev (bexp u)) <> 0.
Proof. unfold nz. rewrite negb_true_iff. apply expo_nz. Qed.
Lemma nz_false u : nz u = false <-> QcR (ev (bexp u)) = 0.
Proof. unfold nz. rewrite negb_false_iff. apply expo_z. Qed.

(** Nonzero exponents occur at most once per name. *)
Definition uniq (l : half) : Prop := NoDup (map bname (filter nz l)).

Lemma nth_uniq l :
  (forall i j u1 u2, nth_error l i = Some u1 -> nth_error l j = Some u2 -> (i < j)%nat ->
     bname u1 = bname u2 -> ev (bexp u1) = qc 0) -> uniq l.
Proof.
  unfold uniq. induction l as [|u l IH]; intro h; cbn; [constructor|].
  assert (IH' : NoDup (map bname (filter nz l))).
  { apply IH. intros i j u1 u2 hi hj hij. apply (h (S i) (S j)); auto. lia. }
  destruct (nz u) eqn:e; auto. cbn. constructor; auto.
  intro hin. apply in_map_iff in hin. destruct hin as [v [hv hv']]. apply filter_In in hv'.
  destruct hv' as [hv' _]. apply In_nth_error in hv'. destruct hv' as [k hk].
  apply nz_true in e. apply e. rewrite (h 0%nat (S k) u v); auto; [apply QcR_qc|lia].
Qed.
Lemma combine_uniq l : uniq (combine_units l).
Proof. apply nth_uniq. intros i j u1 u2 hi hj hij hn. exact (combine_unique l i j u1 u2 hi hj hij hn). Qed.

(** ** The loops *)

Lemma absorb_lin phi u bots u' bots' :
  absorb u bots = (u', bots') ->
  QcR (ev (bexp u')) * phi (bname u') - lin phi bots' = QcR (ev (bexp u)) * phi (bname u) - lin phi bots.
Proof.
  revert u u' bots'. induction bots as [|v bs IH]; intros u u' bots' h; cbn in h.
  - injection h as <- <-. reflexivity.
  - destruct (String.eqb (bname u) (bname v) && negb (e_is (bexp u) 0)) eqn:c.
    + apply andb_true_iff in c. destruct c as [c _]. apply String.eqb_eq in c.
      destruct (absorb _ bs) as [w ws] eqn:h'. injection h as <- <-.
      specialize (IH _ _ _ h'). cbn [bexp bname esub ev lin] in *.
      rewrite QcR_minus in IH. rewrite ev_eint. rewrite <- c. lra.
    + destruct (absorb u bs) as [w ws] eqn:h'. injection h as <- <-.
      specialize (IH _ _ _ h'). cbn [lin]. lra.
Qed.
Lemma cancel_loop_lin phi tops bots t b :
  cancel_loop tops bots = (t, b) -> lin phi t - lin phi b = lin phi tops - lin phi bots.
Proof.
  revert bots t b. induction tops as [|u ts IH]; intros bots t b h; cbn in h.
  - injection h as <- <-. reflexivity.
  - destruct (absorb u bots) as [u' b1] eqn:h1. destruct (cancel_loop ts b1) as [t' b2] eqn:h2.
    injection h as <- <-. specialize (IH _ _ _ h2). apply (absorb_lin phi) in h1. cbn [lin]. lra.
Qed.

Lemma lin_filter_split phi l :
  lin phi (filter (fun u => eltb (eint 0) (bexp u)) l)
  - lin phi (map (fun u => BU (bname u) (eopp (bexp u))) (filter (fun u => eltb (bexp u) (eint 0)) l))
  = lin phi l.
Proof.
  induction l as [|u l IH]; cbn; [lra|].
  destruct (eltb (eint 0) (bexp u)) eqn:p; destruct (eltb (bexp u) (eint 0)) eqn:q;
    cbn [lin map bname bexp ev eopp]; rewrite ?QcR_opp; try lra.
  - apply eltb_lt in p. apply eltb_lt in q. lra.
  - apply eltb_ge in p. apply eltb_ge in q. rewrite ev_eint in *. replace (QcR (ev (bexp u))) with 0 by lra. lra.
Qed.
Lemma lin_filter_nz phi l : lin phi (filter nz l) = lin phi l.
Proof.
  induction l as [|u l IH]; cbn; [reflexivity|]. destruct (nz u) eqn:e; cbn; rewrite IH; auto.
  apply nz_false in e. rewrite e. lra.
Qed.
Lemma cancel_lin phi top bot t b :
  cancel_units top bot = (t, b) -> lin phi t - lin phi b = lin phi top - lin phi bot.
Proof.
  unfold cancel_units. destruct (cancel_loop top bot) as [t0 b0] eqn:h. intro e. injection e as <- <-.
  apply (cancel_loop_lin phi) in h. rewrite lin_app. change (fun u => negb (e_is (bexp u) 0)) with nz.
  rewrite lin_filter_nz. pose proof (lin_filter_split phi t0). lra.
Qed.

(** Positions keep their names; bottoms are kept or zeroed; a zero top stays zero. *)
Lemma absorb_name u bots u' b : absorb u bots = (u', b) -> bname u' = bname u.
Proof.
  revert u u' b. induction bots as [|v bs IH]; intros u u' b h; cbn in h.
  - injection h as <- <-. reflexivity.
  - destruct (String.eqb (bname u) (bname v) && negb (e_is (bexp u) 0)).
    + destruct (absorb _ bs) as [w ws] eqn:h'. injection h as <- <-. apply IH in h'. exact h'.
    + destruct (absorb u bs) as [w ws] eqn:h'. injection h as <- <-. apply IH in h'. exact h'.
Qed.
Lemma absorb_zero u bots : nz u = false -> absorb u bots = (u, bots).
Proof.
  intro z. unfold nz in z. induction bots as [|v bs IH]; cbn; [reflexivity|].
  rewrite z, andb_false_r, IH. reflexivity.
Qed.
Definition kept_or_zero (b b' : bu) : Prop := b' = b \/ (bname b' = bname b /\ nz b' = false).
Lemma kz_refl l : Forall2 kept_or_zero l l.
Proof. induction l; constructor; auto. left. reflexivity. Qed.
Lemma kz_trans l1 l2 l3 : Forall2 kept_or_zero l1 l2 -> Forall2 kept_or_zero l2 l3 -> Forall2 kept_or_zero l1 l3.
Proof.
  intro h. revert l3. induction h as [|a b l1 l2 hab h IH]; intros l3 h'; inversion h'; subst; constructor; auto.
  destruct hab as [->|[hn hz]]; auto. destruct H1 as [->|[hn' hz']]; right; split; congruence || auto.
Qed.
Lemma absorb_kz u bots u' b : absorb u bots = (u', b) -> Forall2 kept_or_zero bots b.
Proof.
  revert u u' b. induction bots as [|v bs IH]; intros u u' b h; cbn in h.
  - injection h as <- <-. constructor.
  - destruct (String.eqb (bname u) (bname v) && negb (e_is (bexp u) 0)).
    + destruct (absorb _ bs) as [w ws] eqn:h'. injection h as <- <-. constructor; [|eauto].
      right. split; [reflexivity|]. apply nz_false. apply ev_eint.
    + destruct (absorb u bs) as [w ws] eqn:h'. injection h as <- <-. constructor; [left; reflexivity|eauto].
Qed.
(** If the absorbing unit ends nonzero, it has absorbed every unit of its name. *)
Lemma absorb_all u bots u' b : absorb u bots = (u', b) -> nz u' = true ->
  forall v, In v b -> bname v = bname u -> nz v = false.
Proof.
  revert u u' b. induction bots as [|v bs IH]; intros u u' b h hz x hx hn; cbn in h.
  - injection h as <- <-. destruct hx.
  - destruct (String.eqb (bname u) (bname v) && negb (e_is (bexp u) 0)) eqn:c.
    + destruct (absorb _ bs) as [w ws] eqn:h'. injection h as <- <-. destruct hx as [<-|hx].
      * apply nz_false. apply ev_eint.
      * eapply IH; eauto.
    + destruct (absorb u bs) as [w ws] eqn:h'. injection h as <- <-.
      destruct hx as [<-|hx]; [|eapply IH; eauto].
      apply andb_false_iff in c. destruct c as [c|c].
      * apply String.eqb_neq in c. congruence.
      * change (nz u = false) in c. rewrite (absorb_zero u bs c) in h'. injection h' as <- <-. congruence.
Qed.

Definition zero_stays (u u' : bu) : Prop := bname u' = bname u /\ (nz u = false -> u' = u).
Lemma cancel_loop_spec tops bots t b : cancel_loop tops bots = (t, b) ->
  Forall2 zero_stays tops t /\ Forall2 kept_or_zero bots b /\
  (forall u v, In u t -> nz u = true -> In v b -> bname v = bname u -> nz v = false).
Proof.
  revert bots t b. induction tops as [|u ts IH]; intros bots t b h; cbn in h.
  - injection h as <- <-. repeat split; [constructor | apply kz_refl | intros u v []].
  - destruct (absorb u bots) as [u' b1] eqn:h1. destruct (cancel_loop ts b1) as [t' b2] eqn:h2.
    injection h as <- <-. destruct (IH _ _ _ h2) as [p1 [p2 p3]].
    pose proof (absorb_name _ _ _ _ h1) as hn. pose proof (absorb_kz _ _ _ _ h1) as hk.
    repeat split.
    + constructor; auto. split; auto. intro z. rewrite (absorb_zero u bots z) in h1. congruence.
    + eapply kz_trans; eauto.
    + intros x v [<-|hx] hz hv hnv; [|eauto].
      apply In_nth_error in hv. destruct hv as [k hv].
      assert (exists v1, nth_error b1 k = Some v1 /\ kept_or_zero v1 v) as [v1 [hv1 kz]].
      { clear - p2 hv. revert k hv. induction p2 as [|a a' l l' ha p2 IH]; intros [|k] hv; cbn in *; try discriminate.
        - injection hv as <-. eauto.
        - eauto. }
      destruct kz as [->|[_ z]]; auto. eapply absorb_all; eauto.
      * eapply nth_error_In; eauto.
      * congruence.
Qed.

(** ** The result *)
Lemma Forall2_filter_names (P : bu -> bu -> Prop) l l' :
  (forall u u', P u u' -> bname u' = bname u /\ (nz u = false -> nz u' = false)) ->
  Forall2 P l l' -> uniq l -> uniq l'.
Proof.
  intros hP h. unfold uniq.
  induction h as [|u u' l l' hu h IH]; cbn; auto. intro nd. destruct (hP _ _ hu) as [en ez].
  assert (sub : forall n, In n (map bname (filter nz l')) -> In n (map bname (filter nz l))).
  { clear - hP h. induction h as [|u u' l l' hu h IH]; cbn; auto. intros n hn. destruct (hP _ _ hu) as [en ez].
    destruct (nz u) eqn:e; destruct (nz u') eqn:e'; cbn in *.
    - rewrite en in hn. destruct hn as [hn|hn]; auto.
    - right. auto.
    - specialize (ez eq_refl). discriminate.
    - auto. }
  assert (nd' : NoDup (map bname (filter nz l))).
  { destruct (nz u); auto. cbn in nd. inversion nd; auto. }
  specialize (IH nd'). destruct (nz u') eqn:e'; auto. cbn. constructor; auto.
  destruct (nz u) eqn:e; [|specialize (ez eq_refl); congruence].
  cbn in nd. inversion nd as [|x xs hx hxs]; subst. rewrite en. intro hin. apply hx. auto.
Qed.

Lemma perm_pos_neg (l : half) :
  Permutation (map bname (filter nz l))
    (map bname (filter (fun u => eltb (eint 0) (bexp u)) l)
     ++ map bname (map (fun u => BU (bname u) (eopp (bexp u))) (filter (fun u => eltb (bexp u) (eint 0)) l))).
Proof.
  induction l as [|u l IH]; cbn; [constructor|].
  destruct (eltb (eint 0) (bexp u)) eqn:p; destruct (eltb (bexp u) (eint 0)) eqn:q; destruct (nz u) eqn:z; cbn.
  all: try apply eltb_lt in p; try apply eltb_lt in q; try apply eltb_ge in p; try apply eltb_ge in q;
       try apply nz_true in z; try apply nz_false in z; rewrite ?ev_eint in *; try lra.
  - constructor. exact IH.
  - apply Permutation_cons_app. exact IH.
  - exact IH.
Qed.

Lemma NoDup_app_intro {A} (l1 l2 : list A) :
  NoDup l1 -> NoDup l2 -> (forall x, In x l1 -> In x l2 -> False) -> NoDup (l1 ++ l2).
Proof.
  intros h1 h2 h. induction h1 as [|x l hx h1 IH]; cbn; auto. constructor.
  - intro hin. apply in_app_or in hin. destruct hin as [hin|hin]; auto. apply (h x); cbn; auto.
  - apply IH. intros y hy. apply h. right. exact hy.
Qed.

Lemma cancel_nodup top bot t b : cancel_units top bot = (t, b) -> uniq top -> uniq bot ->
  NoDup (map bname (t ++ b)).
Proof.
  unfold cancel_units. destruct (cancel_loop top bot) as [t0 b0] eqn:h. intro e. injection e as <- <-.
  intros ut ub. destruct (cancel_loop_spec _ _ _ _ h) as [p1 [p2 p3]].
  assert (ut' : uniq t0).
  { eapply (Forall2_filter_names zero_stays); eauto. intros u u' [hn hz]. split; auto. intro z. rewrite (hz z). exact z. }
  assert (ub' : uniq b0).
  { eapply (Forall2_filter_names kept_or_zero); eauto. intros u u' [->|[hn hz]]; auto. }
  change (fun u => negb (e_is (bexp u) 0)) with nz. rewrite app_assoc, map_app.
  rewrite map_app. apply NoDup_app_intro; auto.
  - eapply Permutation_NoDup; [apply perm_pos_neg|]. exact ut'.
  - intros n hn1 hn2. apply (Permutation_in _ (Permutation_sym (perm_pos_neg t0))) in hn1.
    apply in_map_iff in hn1. destruct hn1 as [u [<- hu]]. apply filter_In in hu.
    apply in_map_iff in hn2. destruct hn2 as [v [hv hv']]. apply filter_In in hv'.
    destruct hu as [hu zu], hv' as [hv' zv]. rewrite (p3 u v hu zu hv' hv) in zv. discriminate.
Qed.

Lemma cancel_top_pos top bot t b : cancel_units top bot = (t, b) ->
  forall u, In u t -> 0 < QcR (ev (bexp u)).
Proof.
  unfold cancel_units. destruct (cancel_loop top bot) as [t0 b0]. intro e. injection e as <- <-.
  intros u hu. apply filter_In in hu. destruct hu as [_ hu]. apply eltb_lt in hu. rewrite ev_eint in hu. exact hu.
Qed.
Lemma cancel_bot_nz top bot t b : cancel_units top bot = (t, b) ->
  forall u, In u b -> QcR (ev (bexp u)) <> 0.
Proof.
  unfold cancel_units. destruct (cancel_loop top bot) as [t0 b0]. intro e. injection e as <- <-.
  intros u hu. apply in_app_or in hu. destruct hu as [hu|hu].
  - apply in_map_iff in hu. destruct hu as [v [<- hv]]. apply filter_In in hv. destruct hv as [_ hv].
    apply eltb_lt in hv. rewrite ev_eint in hv. cbn. rewrite QcR_opp. lra.
  - apply filter_In in hu. destruct hu as [_ hu]. apply nz_true in hu. exact hu.
Qed.

Lemma Forall2_in_r {A B} (P : A -> B -> Prop) l l' y : Forall2 P l l' -> In y l' -> exists x, In x l /\ P x y.
Proof.
  intro h. induction h as [|a b l l' hab h IH]; cbn; [tauto|]. intros [<-|hy]; [eauto|].
  destruct (IH hy) as [x [hx hp]]. eauto.
Qed.
(** Every name of the result occurred in the input. *)
Lemma cancel_names top bot t b : cancel_units top bot = (t, b) ->
  (forall u, In u t -> exists v, In v top /\ bname v = bname u) /\
  (forall u, In u b -> exists v, In v (top ++ bot) /\ bname v = bname u).
Proof.
  unfold cancel_units. destruct (cancel_loop top bot) as [t0 b0] eqn:h. intro e. injection e as <- <-.
  destruct (cancel_loop_spec _ _ _ _ h) as [p1 [p2 p3]]. split.
  - intros u hu. apply filter_In in hu. destruct hu as [hu _].
    destruct (Forall2_in_r _ _ _ _ p1 hu) as [v [hv [hn _]]]. exists v. auto.
  - intros u hu. apply in_app_or in hu. destruct hu as [hu|hu].
    + apply in_map_iff in hu. destruct hu as [x [<- hx]]. apply filter_In in hx. destruct hx as [hx _].
      destruct (Forall2_in_r _ _ _ _ p1 hx) as [v [hv [hn _]]]. exists v. rewrite in_app_iff. auto.
    + apply filter_In in hu. destruct hu as [hu _].
      destruct (Forall2_in_r _ _ _ _ p2 hu) as [v [hv k]]. exists v. rewrite in_app_iff.
      split; auto. destruct k as [->|[k _]]; auto.
Qed.
