(** * HeapPipe: the pipeline on the heap computes the pure pipeline *)
From Coq Require Import String Ascii List ZArith QArith Qcanon Bool Lia Permutation.
From Verif Require Import Py Num UnitsData UnitsStruct Units Heap HeapSpec HeapFacts.
Import ListNotations.
Local Open Scope string_scope.
Local Open Scope list_scope.
Local Open Scope nat_scope.

Lemma app_inj_length {A} (a b c d : list A) : length a = length c -> a ++ b = c ++ d -> a = c /\ b = d.
Proof.
  revert c. induction a as [|x a IH]; intros [|y c] l e; cbn in *; try discriminate; auto.
  injection e as -> e. apply IH in e; [|congruence]. destruct e as [-> ->]. auto.
Qed.
Notation "'let!' x ':=' e 'in' f" := (bindM e (fun x => f)) (at level 200, x pattern, right associativity).
Section Pipe.
Context {T : Type} `{NT : Num T}.
Notation heap := (@heap T).
Notation M := (@M T).
Implicit Types h : heap.

(** ** Combining *)
Lemma stored_nth (h : heap) cs b i : stored h cs b ->
  match nth_error cs i, nth_error b i with
  | Some c, Some x => nth_error (cells h) c = Some x
  | None, None => True
  | _, _ => False
  end.
Proof.
  intro s. revert i. induction s as [|c x cs b e s IH]; intros [|i]; cbn; auto. apply IH.
Qed.
Lemma stored_set (h : heap) cs b i c x :
  NoDup cs -> stored h cs b -> nth_error cs i = Some c ->
  stored (T:=T) (HP (set_nth c x (cells h)) (lists h) (uobjs h) (mobjs h)) cs (set_nth i x b).
Proof.
  intros n s. revert i n. induction s as [|c' y cs b e s IH]; intros [|i] n; cbn; try discriminate.
  - intros [= ->]. inversion n; subst. constructor.
    + cbn. apply sn_eq. apply nth_error_Some. congruence.
    + eapply only_stored; [apply (only_set h c x [c]); now left| |exact s].
      intros c' i [<-|[]]. auto.
  - intro k. inversion n as [|? ? ni n']; subst. constructor.
    + cbn. rewrite sn_neq; [exact e|]. intros ->. apply nth_error_In in k. auto.
    + apply IH; assumption.
Qed.
Lemma set_cell_eq (h : heap) c x : set_cell c x h = (Ok tt, HP (set_nth c x (cells h)) (lists h) (uobjs h) (mobjs h)).
Proof. reflexivity. Qed.
Lemma combine_step_ok cs (h : heap) b i j :
  NoDup cs -> stored h cs b ->
  exists h', h_combine_step cs i j h = (Ok tt, h') /\ only h h' cs /\ stored h' cs (combine_step i j b).
Proof.
  intros n s. unfold h_combine_step, combine_step.
  assert (ki := stored_nth h cs b i s). assert (kj := stored_nth h cs b j s).
  destruct (nth_error cs i) as [c1|] eqn:e1; destruct (nth_error b i) as [u1|] eqn:f1; try contradiction.
  2:{ exists h. split; [reflexivity|]. split; [apply only_refl|exact s]. }
  destruct (nth_error cs j) as [c2|] eqn:e2; destruct (nth_error b j) as [u2|] eqn:f2; try contradiction.
  2:{ exists h. split; [reflexivity|]. split; [apply only_refl|exact s]. }
  unfold bindM at 1. rewrite (get_cell_ok _ _ _ ki). unfold bindM at 1. rewrite (get_cell_ok _ _ _ kj).
  destruct (String.eqb (bname u1) (bname u2)) eqn:en; cbn [andb].
  2:{ exists h. split; [reflexivity|]. split; [apply only_refl|exact s]. }
  destruct (Nat.eqb i j) eqn:ij; cbn [negb].
  { exists h. split; [reflexivity|]. split; [apply only_refl|exact s]. }
  apply Nat.eqb_neq in ij.
  assert (ne : c1 <> c2).
  { intros ->. apply ij. apply (NoDup_nth_error cs); [exact n| |congruence]. apply nth_error_Some. congruence. }
  assert (s1 := stored_set h cs b i c1 (BU (bname u1) (eadd (bexp u1) (bexp u2))) n s e1).
  assert (s2 := stored_set _ cs _ j c2 (BU (bname u2) (eint 0)) n s1 e2).
  unfold bindM at 1. rewrite set_cell_eq. unfold bindM at 1. erewrite get_cell_ok by (cbn; rewrite sn_neq by exact ne; exact kj).
  rewrite set_cell_eq. eexists. split; [reflexivity|]. split; [|exact s2].
  eapply only_trans; [eapply only_set, nth_error_In, e1|].
  apply (only_set (HP (set_nth c1 (BU (bname u1) (eadd (bexp u1) (bexp u2))) (cells h)) (lists h) (uobjs h) (mobjs h)) c2).
  eapply nth_error_In, e2.
Qed.
Lemma iter_fold {A} cs (f : A -> M unit) (g : half -> A -> half) l :
  (forall a h b, stored h cs b -> exists h', f a h = (Ok tt, h') /\ only h h' cs /\ stored h' cs (g b a)) ->
  forall h b, stored h cs b -> exists h', iterM f l h = (Ok tt, h') /\ only h h' cs /\ stored h' cs (fold_left g l b).
Proof.
  intro k. induction l as [|a l IH]; intros h b s.
  - exists h. split; [reflexivity|]. split; [apply only_refl|exact s].
  - destruct (k a h b s) as (h1 & e1 & o1 & s1). destruct (IH h1 _ s1) as (h2 & e2 & o2 & s2).
    exists h2. split; [|split; [eapply only_trans; eassumption|exact s2]].
    cbn [iterM]. unfold bindM. rewrite e1. exact e2.
Qed.
Lemma h_combine_ok (h : heap) l cs b :
  NoDup cs -> nth_error (lists h) l = Some cs -> stored h cs b ->
  exists h', h_combine l h = (Ok l, h') /\ only h h' cs /\ stored h' cs (combine_units b).
Proof.
  intros n e s. unfold h_combine, combine_units. rewrite <- (stored_length _ _ _ s).
  set (idx := seq 0 (length cs)).
  destruct (iter_fold cs (fun i => iterM (fun j => h_combine_step cs i j) idx)
             (fun l i => fold_left (fun l j => combine_step i j l) idx l) idx) with (h := h) (b := b) as (h' & e' & o & s').
  - intros i h1 b1 s1.
    apply (iter_fold cs (fun j => h_combine_step cs i j) (fun l j => combine_step i j l) idx); [|exact s1].
    intros j h2 b2 s2. apply combine_step_ok; assumption.
  - exact s.
  - exists h'. split; [|auto]. unfold bindM at 1. rewrite (get_list_ok _ _ _ e). unfold bindM. fold idx. rewrite e'. reflexivity.
Qed.

(** ** Cancelling *)
Lemma absorb_ok cb c1 (h : heap) u1 b :
  NoDup (c1 :: cb) -> stored h (c1 :: cb) (u1 :: b) ->
  exists h', iterM (h_absorb c1) cb h = (Ok tt, h') /\ only h h' (c1 :: cb)
    /\ stored h' (c1 :: cb) (fst (absorb u1 b) :: snd (absorb u1 b)).
Proof.
  revert h u1 b. induction cb as [|c2 cs IH]; intros h u1 b n s.
  - inversion s as [|? ? ? ? e1 s1]; subst. inversion s1; subst. exists h. split; [reflexivity|]. split; [apply only_refl|exact s].
  - inversion s as [|? ? ? ? e1 s1]; subst. inversion s1 as [|? u2 ? bs e2 s2]; subst.
    inversion n as [|? ? n1 n']; subst. inversion n' as [|? ? n2 n'']; subst. cbn in n1.
    assert (nn : NoDup (c1 :: cs)) by (constructor; [tauto|assumption]).
    cbn [iterM absorb]. unfold bindM at 1, h_absorb at 1. unfold bindM at 1. rewrite (get_cell_ok _ _ _ e1).
    unfold bindM at 1. rewrite (get_cell_ok _ _ _ e2).
    destruct (String.eqb (bname u1) (bname u2) && negb (e_is (bexp u1) 0)).
    + unfold bindM at 1. rewrite set_cell_eq. unfold bindM at 1.
      erewrite get_cell_ok by (cbn; rewrite sn_neq by (intros ->; tauto); exact e2). rewrite set_cell_eq. cbn [cells lists uobjs mobjs].
      set (u1' := BU (bname u1) (esub (bexp u1) (bexp u2))). set (u2' := BU (bname u2) (eint 0)).
      set (h1 := HP _ _ _ _).
      assert (o1 : only h h1 (c1 :: c2 :: cs)).
      { eapply only_trans; [apply (only_set h c1 u1'); now left|]. apply (only_set (HP (set_nth c1 u1' (cells h)) (lists h) (uobjs h) (mobjs h)) c2 u2'). right. now left. }
      assert (o1' : only h h1 [c1; c2]).
      { eapply only_trans; [apply (only_set h c1 u1'); now left|]. apply (only_set (HP (set_nth c1 u1' (cells h)) (lists h) (uobjs h) (mobjs h)) c2 u2'). right. now left. }
      assert (f1 : nth_error (cells h1) c1 = Some u1').
      { cbn. rewrite sn_neq by (intros ->; tauto). apply sn_eq. apply nth_error_Some. congruence. }
      assert (f2 : nth_error (cells h1) c2 = Some u2').
      { cbn. apply sn_eq. rewrite sn_length. apply nth_error_Some. congruence. }
      assert (s3 : stored h1 (c1 :: cs) (u1' :: bs)).
      { constructor; [exact f1|]. eapply only_stored; [exact o1'| |exact s2].
        intros c i [<-|[<-|[]]]; tauto. }
      destruct (IH h1 u1' bs nn s3) as (h2 & e3 & o2 & s4). exists h2. rewrite e3.
      split; [reflexivity|]. split.
      * eapply only_trans; [exact o1|]. eapply only_mono; [exact o2|]. intros c [<-|i]; [now left|right; now right].
      * destruct (absorb u1' bs) as [v w] eqn:ea. cbn [fst snd] in *. inversion s4 as [|? ? ? ? g1 g2]; subst.
        constructor; [exact g1|]. constructor; [|exact g2].
        destruct o2 as (_ & _ & _ & _ & k). rewrite k; [exact f2|]. intros [->|i]; tauto.
    + assert (s3 : stored h (c1 :: cs) (u1 :: bs)) by (constructor; assumption).
      destruct (IH h u1 bs nn s3) as (h2 & e3 & o2 & s4). exists h2. unfold ret at 1. rewrite e3.
      split; [reflexivity|]. split.
      * eapply only_mono; [exact o2|]. intros c [<-|i]; [now left|right; now right].
      * destruct (absorb u1 bs) as [v w] eqn:ea. cbn [fst snd] in *. inversion s4 as [|? ? ? ? g1 g2]; subst.
        constructor; [exact g1|]. constructor; [|exact g2].
        destruct o2 as (_ & _ & _ & _ & k). rewrite k; [exact e2|]. intros [->|i]; tauto.
Qed.
Lemma cancel_loop_ok ct cb (h : heap) t b :
  NoDup (ct ++ cb) -> stored h ct t -> stored h cb b ->
  exists h', iterM (fun c1 => iterM (h_absorb c1) cb) ct h = (Ok tt, h') /\ only h h' (ct ++ cb)
    /\ stored h' ct (fst (cancel_loop t b)) /\ stored h' cb (snd (cancel_loop t b)).
Proof.
  revert h t b. induction ct as [|c ct IH]; intros h t b n st sb.
  - inversion st; subst. exists h. split; [reflexivity|]. split; [apply only_refl|]. split; [constructor|exact sb].
  - inversion st as [|? u ? ts e st']; subst. cbn in n. inversion n as [|? ? ni n']; subst.
    destruct (NoDup_app_elim _ _ n') as (nt & nb & dis).
    assert (nc : NoDup (c :: cb)) by (constructor; [intro i; apply ni, in_or_app; now right|exact nb]).
    destruct (absorb_ok cb c h u b nc) as (h1 & e1 & o1 & s1); [constructor; assumption|].
    inversion s1 as [|? ? ? ? g1 g2]; subst.
    assert (st1 : stored h1 ct ts).
    { eapply only_stored; [exact o1| |exact st']. intros x i [<-|j]; [apply ni, in_or_app; now left | exact (dis x i j)]. }
    destruct (IH h1 ts _ n' st1 g2) as (h2 & e2 & o2 & k1 & k2).
    exists h2. cbn [iterM cancel_loop]. unfold bindM. rewrite e1, e2.
    destruct (absorb u b) as [u' b'] eqn:ea. cbn [fst snd] in *.
    destruct (cancel_loop ts b') as [ts' b''] eqn:ec. cbn [fst snd] in *.
    split; [reflexivity|]. split; [|split].
    + eapply only_trans; [eapply only_mono; [exact o1|] | eapply only_mono; [exact o2|]].
      * intros x [<-|i]; [now left|right; apply in_or_app; now right].
      * intros x i. now right.
    + constructor; [|exact k1]. destruct o2 as (_ & _ & _ & _ & k). rewrite k; [exact g1|exact ni].
    + exact k2.
Qed.

(** Exactly one of: zero, negative, positive. *)
Lemma sign_cases e : e_is e 0 = negb (eltb e (eint 0)) && negb (eltb (eint 0) e).
Proof.
  unfold e_is, eltb, Qcltb. rewrite !negb_involutive. cbn [ev eint].
  destruct (Qc_eq_bool (ev e) (qc 0)) eqn:k.
  - apply Qc_eq_bool_correct in k. rewrite k. reflexivity.
  - destruct (Qle_bool (this (qc 0)) (this (ev e))) eqn:p; [|reflexivity].
    destruct (Qle_bool (this (ev e)) (this (qc 0))) eqn:q; [|reflexivity]. exfalso.
    apply Qle_bool_iff in p. apply Qle_bool_iff in q.
    assert (z : ev e = qc 0) by (apply Qc_is_canon; apply Qle_antisym; assumption).
    rewrite z in k. discriminate.
Qed.
Lemma sign_excl e : eltb e (eint 0) = true -> eltb (eint 0) e = false.
Proof.
  unfold eltb, Qcltb. cbn [ev eint]. rewrite negb_true_iff, negb_false_iff. intro k.
  apply Qle_bool_iff. apply Qlt_le_weak. apply Qnot_le_lt. intro c. apply Qle_bool_iff in c. congruence.
Qed.
Lemma h_split_ok ct : forall (h : heap) t, NoDup ct -> stored h ct t ->
  exists xs ks ns, h_split ct h = (Ok (ks, ns), HP (cells h ++ xs) (lists h) (uobjs h) (mobjs h))
    /\ incl ks ct /\ NoDup ks /\ NoDup ns
    /\ Forall (fun c => length (cells h) <= c) ns
    /\ stored (T:=T) (HP (cells h ++ xs) (lists h) (uobjs h) (mobjs h)) ks (filter (fun u => eltb (eint 0) (bexp u)) t)
    /\ stored (T:=T) (HP (cells h ++ xs) (lists h) (uobjs h) (mobjs h)) ns (map (fun u => BU (bname u) (eopp (bexp u))) (filter (fun u => eltb (bexp u) (eint 0)) t)).
Proof.
  induction ct as [|c ct IH]; intros h t n s; inversion s as [|? u ? ts e s']; subst.
  - exists [], [], []. cbn. rewrite app_nil_r. destruct h. unfold ret. repeat split; try constructor. intros x [].
  - inversion n as [|? ? ni n']; subst. cbn [h_split filter map]. unfold bindM at 1. rewrite (get_cell_ok _ _ _ e).
    assert (sc := sign_cases (bexp u)). assert (se := sign_excl (bexp u)).
    destruct (eltb (bexp u) (eint 0)) eqn:lo; cbn [negb andb] in sc.
    + rewrite sc, (se eq_refl). unfold bindM at 1. unfold new_cell at 1.
      set (x := BU (bname u) (eopp (bexp u))).
      set (h1 := HP (cells h ++ [x]) (lists h) (uobjs h) (mobjs h)).
      assert (k1 : keeps (cells h) (cells h1)) by apply keeps_app.
      destruct (IH h1 ts n') as (xs & ks & ns & r & i1 & i2 & i3 & i4 & s1 & s2); [eapply stored_unchanged; [exact k1|exact s']|].
      exists (x :: xs), ks, (length (cells h) :: ns). unfold bindM. rewrite r. cbn in s1, s2, i4. cbn [fst snd]. unfold ret.
      rewrite <- app_assoc in s1, s2. cbn [app] in s1, s2.
      cbn [cells h1 lists uobjs mobjs]. rewrite <- app_assoc. cbn [app].
      split; [reflexivity|]. split; [intros y j; right; auto|]. split; [exact i2|]. split.
      * constructor; [|exact i3]. intro j. rewrite Forall_forall in i4. apply i4 in j. rewrite app_length in j. cbn in j. lia.
      * split.
        -- constructor; [lia|]. eapply Forall_impl; [|exact i4]. cbn. intros y j. rewrite app_length in j. cbn in j. lia.
        -- split; [exact s1|]. constructor; [|exact s2]. cbn. rewrite nth_error_app2, Nat.sub_diag by lia. reflexivity.
    + destruct (IH h ts n' s') as (xs & ks & ns & r & i1 & i2 & i3 & i4 & s1 & s2).
      destruct (eltb (eint 0) (bexp u)) eqn:hi; cbn [negb] in sc; rewrite sc.
      * exists xs, (c :: ks), ns. unfold bindM. rewrite r. cbn [fst snd]. unfold ret.
        split; [reflexivity|]. split; [intros y [<-|j]; [now left|right; auto]|]. split; [constructor; auto|].
        repeat split; auto. constructor; [|exact s1]. cbn. apply keeps_app, e.
      * exists xs, ks, ns. split; [exact r|]. split; [intros y j; right; auto|]. repeat split; auto.
Qed.
Lemma h_keep_ok cb : forall (h : heap) b, NoDup cb -> stored h cb b ->
  exists ks, h_keep cb h = (Ok ks, h) /\ incl ks cb /\ NoDup ks /\ stored h ks (filter (fun u => negb (e_is (bexp u) 0)) b).
Proof.
  induction cb as [|c cb IH]; intros h b n s; inversion s as [|? u ? bs e s']; subst.
  - exists []. repeat split; try constructor. intros x [].
  - inversion n as [|? ? ni n']; subst. destruct (IH h bs n' s') as (ks & r & i1 & i2 & s1).
    cbn [h_keep filter]. unfold bindM. rewrite (get_cell_ok _ _ _ e), r. unfold ret.
    destruct (e_is (bexp u) 0); cbn [negb]; [exists ks | exists (c :: ks)]; split; [reflexivity| |reflexivity|].
    + repeat split; auto. intros y j. right; auto.
    + repeat split; auto; [intros y [<-|j]; [now left|right; auto] | constructor; auto | constructor; auto].
Qed.
Lemma new_list_eq (h : heap) cs : new_list cs h = (Ok (length (lists h)), HP (cells h) (lists h ++ [cs]) (uobjs h) (mobjs h)).
Proof. reflexivity. Qed.
Lemma set_list_eq (h : heap) l cs : set_list l cs h = (Ok tt, HP (cells h) (set_nth l cs (lists h)) (uobjs h) (mobjs h)).
Proof. reflexivity. Qed.
Lemma fresh_incl h0 (a b : list nat) : incl a b -> @fresh T h0 b -> fresh h0 a.
Proof. unfold fresh. rewrite !Forall_forall. auto. Qed.

Lemma h_cancel_ok h0 (h : heap) lt lb t b :
  sound h0 h -> owned h0 h lt lb t b ->
  exists h' lt' lb', h_cancel lt lb h = (Ok (lt', lb'), h') /\ sound h0 h'
    /\ owned h0 h' lt' lb' (fst (cancel_units t b)) (snd (cancel_units t b)).
Proof.
  intros s (ct & cb & [e1 e2 ne ft fb nd fr st sb]).
  destruct (cancel_loop_ok ct cb h t b nd st sb) as (h1 & r1 & o1 & st1 & sb1).
  assert (s1 : sound h0 h1) by (eapply only_sound; eassumption).
  destruct (NoDup_app_elim _ _ nd) as (nt & nb & dis).
  destruct (h_split_ok ct h1 _ nt st1) as (xs & ks & ns & r2 & i1 & i2 & i3 & i4 & q1 & q2).
  set (h2 := HP (cells h1 ++ xs) (lists h1) (uobjs h1) (mobjs h1)) in *.
  assert (s2 : sound h0 h2) by (apply sound_new_cells, s1).
  assert (sb2 : stored h2 cb (snd (cancel_loop t b))) by (eapply stored_unchanged; [apply keeps_app|exact sb1]).
  destruct (h_keep_ok cb h2 _ nb sb2) as (kb & r3 & j1 & j2 & q3).
  unfold h_cancel, cancel_units. unfold bindM at 1. rewrite (get_list_ok _ _ _ e1).
  unfold bindM at 1. rewrite (get_list_ok _ _ _ e2). unfold bindM at 1. rewrite r1.
  unfold bindM at 1. rewrite r2. unfold bindM at 1. rewrite r3. unfold bindM at 1. rewrite new_list_eq.
  unfold bindM. rewrite new_list_eq. unfold ret. cbn [fst snd cells lists uobjs mobjs].
  destruct (cancel_loop t b) as [t' b'] eqn:ec. cbn [fst snd] in *.
  assert (old : forall c, In c (ct ++ cb) -> c < length (cells h1)).
  { intros c i. apply in_app_or in i. assert (p := stored_range _ _ _ st1). assert (q := stored_range _ _ _ sb1).
    rewrite Forall_forall in p, q. destruct i; auto. }
  assert (bot : stored h2 (ns ++ kb) (map (fun u => BU (bname u) (eopp (bexp u))) (filter (fun u => eltb (bexp u) (eint 0)) t') ++ filter (fun u => negb (e_is (bexp u) 0)) b'))
    by (apply stored_app; assumption).
  rewrite Forall_forall in i4.
  assert (n2 : NoDup (ns ++ kb)).
  { apply NoDup_app_intro; auto. intros c p q. apply i4 in p. apply j1 in q.
    assert (c < length (cells h1)) by (apply old, in_or_app; now right). lia. }
  assert (n3 : NoDup (ks ++ ns ++ kb)).
  { apply NoDup_app_intro; auto. intros c p q. apply i1 in p. apply in_app_or in q as [q|q].
    - apply i4 in q. assert (c < length (cells h1)) by (apply old, in_or_app; now left). lia.
    - apply j1 in q. exact (dis c p q). }
  assert (s3 : sound h0 (HP (cells h2) (lists h2 ++ [ks]) (uobjs h2) (mobjs h2))).
  { apply sound_new_list; auto. eapply stored_range, q1. }
  assert (s4 := sound_new_list h0 _ (ns ++ kb) s3 n2 (stored_range _ _ _ bot)). cbn [cells lists uobjs mobjs h2] in s4.
  eexists _, _, _. split; [reflexivity|]. split; [exact s4|].
  assert (ll : length (lists h0) <= length (lists h1)) by (apply unchanged_lengths, s1).
  exists ks, (ns ++ kb). constructor.
  - cbn. rewrite <- app_assoc, nth_error_app2, Nat.sub_diag by lia. reflexivity.
  - cbn. rewrite nth_error_app2, Nat.sub_diag by lia. reflexivity.
  - cbn. rewrite app_length. cbn. lia.
  - cbn. exact ll.
  - cbn. rewrite app_length. lia.
  - exact n3.
  - unfold fresh in *. rewrite Forall_forall in fr |- *. intros c p.
    assert (ul := proj1 (unchanged_lengths _ _ (proj1 s1))).
    apply in_app_or in p as [p|p]; [apply fr, in_or_app; left; auto|].
    apply in_app_or in p as [p|p]; [apply i4 in p; lia|apply fr, in_or_app; right; auto].
  - exact q1.
  - exact bot.
Qed.

(** ** Expanding *)

(** Two disjoint lists of BaseUnits made after [h0], nothing else having changed. *)
Record cown (h0 : heap) (ls : list (list nat)) (h : heap) (ct cb : list nat) (t b : half) : Prop := COwn {
  co_l : lists h = ls;
  co_nd : NoDup (ct ++ cb);
  co_fr : fresh h0 (ct ++ cb);
  co_t : stored h ct t;
  co_b : stored h cb b }.
Lemma cown_swap h0 ls h ct cb t b : cown h0 ls h ct cb t b -> cown h0 ls h cb ct b t.
Proof.
  intros [p q r u v]. constructor; auto.
  - eapply Permutation_NoDup; [apply Permutation_app_comm|exact q].
  - unfold fresh in *. rewrite Forall_forall in *. intros c i. apply r, in_or_app. apply in_app_or in i. tauto.
Qed.
Lemma move_perm (a b n o m : list nat) : Permutation ((a ++ b ++ o) ++ (n ++ m)) ((a ++ b ++ n) ++ o ++ m).
Proof.
  rewrite <- !app_assoc. apply Permutation_app_head, Permutation_app_head. apply Permutation_app_swap_app.
Qed.
Lemma expand_loop_ok h0 ls fuel : forall h pre rest other pb rb ob hit,
  sound h0 h -> cown h0 ls h (pre ++ rest) other (pb ++ rb) ob -> length pre = length pb ->
  runs h0 (h_expand_loop fuel pre rest other hit) h (expand_loop fuel pb rb ob hit)
    (fun y x h' => snd x = snd y /\ cown h0 ls h' (fst (fst x)) (snd (fst x)) (fst (fst y)) (snd (fst y))).
Proof.
  induction fuel as [|fuel IH]; intros h pre rest other pb rb ob hit s co len.
  - assert (L := stored_length _ _ _ (co_t _ _ _ _ _ _ _ co)). rewrite !app_length in L.
    destruct rest as [|c rest]; destruct rb as [|x rb]; cbn in L; try lia; cbn [h_expand_loop expand_loop].
    + apply runs_ret; [exact s|]. rewrite !app_nil_r in co. cbn. auto.
    + apply runs_fail, s.
  - assert (L := stored_length _ _ _ (co_t _ _ _ _ _ _ _ co)). rewrite !app_length in L.
    destruct rest as [|c rest]; destruct rb as [|x rb]; cbn in L; try lia; cbn [h_expand_loop expand_loop].
    { apply runs_ret; [exact s|]. rewrite !app_nil_r in co. cbn. auto. }
    destruct co as [cl nd fr st sb].
    assert (ec : nth_error (cells h) c = Some x).
    { assert (k := stored_nth h _ _ (length pre) st). rewrite nth_error_app2, Nat.sub_diag in k by lia.
      rewrite len, nth_error_app2, Nat.sub_diag in k by lia. exact k. }
    eapply runs_step; [apply get_cell_ok, ec|].
    destruct (dict_get DECONSTRUCTABLE_UNITS (bname x)) as [d|].
    2:{ apply IH; [exact s| |rewrite !app_length; cbn; lia]. rewrite <- !app_assoc. cbn [app]. constructor; assumption. }
    destruct (expand d (bexp x)) as [[q1 q2]|e]; [|exists h; split; [exact s|reflexivity]].
    eapply runs_step; [reflexivity|]. cbn [fst snd bind].
    eapply runs_step; [apply new_cells|]. eapply runs_step; [apply new_cells|].
    cbn [cells lists uobjs mobjs].
    set (n1 := seq (length (cells h)) (length q1)). set (n2 := seq (length (cells h ++ q1)) (length q2)).
    set (h2 := HP ((cells h ++ q1) ++ q2) (lists h) (uobjs h) (mobjs h)).
    assert (s2 : sound h0 h2).
    { apply (sound_new_cells h0 (HP (cells h ++ q1) (lists h) (uobjs h) (mobjs h))). apply sound_new_cells, s. }
    assert (kk : keeps (cells h) (cells h2)) by (eapply keeps_trans; apply keeps_app).
    assert (sn1 : stored h2 n1 q1).
    { eapply stored_unchanged; [|apply (stored_seq h q1 (lists h) (uobjs h) (mobjs h))]. apply keeps_app. }
    assert (sn2 : stored h2 n2 q2).
    { apply (stored_seq (HP (cells h ++ q1) (lists h) (uobjs h) (mobjs h)) q2 (lists h) (uobjs h) (mobjs h)). }
    assert (r1 : forall c, In c n1 -> length (cells h) <= c < length (cells h ++ q1)).
    { intros y i. apply in_seq in i. rewrite app_length. lia. }
    assert (r2 : forall c, In c n2 -> length (cells h ++ q1) <= c).
    { intros y i. apply in_seq in i. lia. }
    assert (lc := proj1 (unchanged_lengths _ _ (proj1 s))).
    assert (old : forall y, In y ((pre ++ c :: rest) ++ other) -> y < length (cells h)).
    { intros y i. assert (p := stored_range _ _ _ st). assert (q := stored_range _ _ _ sb).
      rewrite Forall_forall in p, q. apply in_app_or in i as [i|i]; auto. }
    rewrite <- app_assoc in nd. cbn [app] in nd.
    assert (nd' : NoDup (pre ++ rest ++ other)) by (eapply NoDup_remove_1, nd).
    assert (nn : NoDup ((pre ++ rest ++ n1) ++ other ++ n2)).
    { eapply Permutation_NoDup; [apply move_perm|]. apply NoDup_app_intro; auto.
      - apply NoDup_app_intro; try apply seq_NoDup. intros y i j. apply r1 in i. apply r2 in j. lia.
      - intros y i j. assert (y < length (cells h)).
        { apply old. rewrite <- app_assoc. apply in_app_or in i. apply in_or_app.
          destruct i as [i|i]; [now left|right]. apply in_app_or in i. right. apply in_or_app. tauto. }
        apply in_app_or in j as [j|j]; [apply r1 in j; lia|apply r2 in j; rewrite app_length in j; lia]. }
    assert (ff : fresh h0 ((pre ++ rest ++ n1) ++ other ++ n2)).
    { unfold fresh in *. rewrite Forall_forall in *. intros y i.
      assert (k : In y (pre ++ rest) \/ In y other \/ In y n1 \/ In y n2) by (rewrite !in_app_iff in *; tauto).
      rewrite in_app_iff in k. destruct k as [[k|k]|[k|[k|k]]].
      - apply fr. rewrite !in_app_iff. tauto.
      - apply fr. rewrite !in_app_iff. cbn. tauto.
      - apply fr. rewrite !in_app_iff. tauto.
      - apply r1 in k. lia.
      - apply r2 in k. rewrite app_length in k. lia. }
    assert (sp : stored h2 pre pb /\ stored h2 rest rb).
    { assert (k := stored_unchanged h h2 _ _ kk st).
      apply Forall2_app_inv_l in k as (b1 & b2 & k1 & k2 & eq).
      assert (l1 := stored_length _ _ _ k1).
      assert (E : pb = b1 /\ x :: rb = b2) by (apply app_inj_length; [congruence|exact eq]).
      destruct E as [-> E]; subst b2; inversion k2; subst; split; assumption. }
    destruct sp as [sp sr].
    assert (co : cown h0 ls h2 (pre ++ rest ++ n1) (other ++ n2) (pb ++ rb ++ q1) (ob ++ q2)).
    { constructor; auto.
      - apply stored_app; [exact sp|apply stored_app; assumption].
      - apply stored_app; [eapply stored_unchanged; [exact kk|exact sb]|exact sn2]. }
    assert (L2 : length (rest ++ n1) = length (rb ++ q1)).
    { rewrite !app_length. unfold n1. rewrite seq_length. lia. }
    destruct (rest ++ n1) as [|y ys]; destruct (rb ++ q1) as [|yb ysb]; cbn in L2; try lia.
    + rewrite !app_nil_r in co. apply runs_ret; [exact s2|]. cbn. auto.
    + apply IH; [exact s2| |rewrite !app_length; cbn; lia].
      rewrite <- !app_assoc. exact co.
Qed.

Lemma round_ok h0 ls h ct cb t b :
  sound h0 h -> cown h0 ls h ct cb t b ->
  runs h0 (h_round ct cb) h (deconstruct_round t b)
    (fun y x h' => snd x = snd y /\ cown h0 ls h' (fst (fst x)) (snd (fst x)) (fst (fst y)) (snd (fst y))).
Proof.
  intros s co. unfold h_round, deconstruct_round.
  eapply runs_step; [apply get_cells, co|].
  eapply runs_bind; [apply (expand_loop_ok h0 ls _ h [] ct cb [] t b false s co eq_refl)|].
  intros [[t1 b1] f1] [[ct1 cb1] g1] h1 s1 [e1 co1]. cbn [fst snd] in *. subst g1.
  eapply runs_step; [apply get_cells, co1|].
  eapply runs_bind; [apply (expand_loop_ok h0 ls _ h1 [] cb1 ct1 [] b1 t1 false s1 (cown_swap _ _ _ _ _ _ _ co1) eq_refl)|].
  intros [[b2 t2] f2] [[cb2 ct2] g2] h2 s2 [e2 co2]. cbn [fst snd] in *. subst g2.
  apply runs_ret; [exact s2|]. cbn [fst snd]. split; [reflexivity|]. apply cown_swap, co2.
Qed.
Lemma dloop_ok h0 ls one_pass fuel : forall h ct cb t b,
  sound h0 h -> cown h0 ls h ct cb t b ->
  runs h0 (h_dloop fuel one_pass ct cb) h (deconstruct_loop fuel one_pass t b)
    (fun y x h' => cown h0 ls h' (fst x) (snd x) (fst y) (snd y)).
Proof.
  induction fuel as [|fuel IH]; intros h ct cb t b s co; cbn [h_dloop deconstruct_loop].
  - apply runs_fail, s.
  - eapply runs_bind; [apply round_ok; eassumption|].
    intros [[t1 b1] f1] [[ct1 cb1] g1] h1 s1 [e1 co1]. cbn [fst snd] in *. subst g1.
    destruct (f1 && negb one_pass); [apply IH; assumption|]. apply runs_ret; assumption.
Qed.
Lemma h_deconstruct_ok h0 one_pass h lt lb t b :
  sound h0 h -> holds h lt t -> holds h lb b ->
  runs h0 (h_deconstruct one_pass lt lb) h (deconstruct_units one_pass t b)
    (fun y x h' => owned h0 h' (fst x) (snd x) (fst y) (snd y)).
Proof.
  intros s ht hb. unfold h_deconstruct, deconstruct_units.
  destruct (deepcopy_ok h0 h lt t s ht) as (h1 & l1 & c1 & a1 & s1 & k1).
  eapply runs_step; [exact a1|].
  assert (hb1 : holds h1 lb b) by (eapply holds_unchanged; [apply k1|exact hb]).
  destruct (deepcopy_ok h0 h1 lb b s1 hb1) as (h2 & l2 & c2 & a2 & s2 & k2).
  eapply runs_step; [exact a2|].
  destruct (two_blocks h0 h h1 h2 l1 l2 c1 c2 t b s k1 k2) as [e1 e2 ne ft fb nd fr st sb].
  eapply runs_step; [apply get_list_ok, e1|]. eapply runs_step; [apply get_list_ok, e2|].
  eapply runs_step; [apply get_cells, st|]. eapply runs_step; [apply get_cells, sb|].
  assert (R := dloop_ok h0 (lists h2) one_pass (S (weights t + weights b)) h2 c1 c2 t b s2).
  assert (R' := R ltac:(constructor; auto)). clear R.
  destruct R' as (h3 & s3 & R). destruct (deconstruct_loop (S (weights t + weights b)) one_pass t b) as [[t3 b3]|e].
  - destruct R as ([c3 d3] & R & co). cbn [fst snd] in *.
    eapply runs_step; [exact R|]. eapply runs_step; [apply set_list_eq|]. eapply runs_step; [apply set_list_eq|].
    cbn [fst snd cells lists uobjs mobjs]. destruct co as [cl cnd cfr cst csb].
    destruct (NoDup_app_elim _ _ cnd) as (n1 & n2 & _).
    assert (s4 := sound_set_list h0 h3 l1 c3 s3 ft n1 (stored_range _ _ _ cst)).
    assert (s5 := sound_set_list h0 _ l2 d3 s4 fb n2 (stored_range _ _ _ csb)).
    apply runs_ret; [exact s5|]. cbn [fst snd]. exists c3, d3.
    assert (l1 < length (lists h3)) by (rewrite cl; apply nth_error_Some; congruence).
    assert (l2 < length (lists h3)) by (rewrite cl; apply nth_error_Some; congruence).
    constructor; auto; cbn.
    + rewrite sn_neq by congruence. apply sn_eq. assumption.
    + apply sn_eq. rewrite sn_length. assumption.
  - exists h3. split; [exact s3|]. unfold bindM. rewrite R. reflexivity.
Qed.

(** ** Simplifying *)
(** New BaseUnits at the end of two lists of one's own. *)
Lemma own_extend h0 (h : heap) lt lb t b q1 q2 :
  sound h0 h -> owned h0 h lt lb t b ->
  forall C (f : unit -> M C) D (r : res D) Q,
  (forall h', sound h0 h' -> owned h0 h' lt lb (t ++ q2) (b ++ q1) -> runs h0 (f tt) h' r Q) ->
  runs h0 (let! n1 := mapMM new_cell q1 in let! n2 := mapMM new_cell q2 in
           let! cb := get_list lb in let! _ := set_list lb (cb ++ n1) in
           let! ct := get_list lt in let! x := set_list lt (ct ++ n2) in f x) h r Q.
Proof.
  intros s (ct & cb & [e1 e2 ne ft fb nd fr st sb]) C f D r Q k.
  eapply runs_step; [apply new_cells|]. eapply runs_step; [apply new_cells|].
  eapply runs_step; [apply get_list_ok; exact e2|]. eapply runs_step; [apply set_list_eq|].
  eapply runs_step; [apply get_list_ok; cbn; rewrite sn_neq by congruence; exact e1|].
  eapply runs_step; [apply set_list_eq|]. cbn [cells lists uobjs mobjs].
  set (n1 := seq (length (cells h)) (length q1)). set (n2 := seq (length (cells h ++ q1)) (length q2)).
  assert (s2 : sound h0 (HP ((cells h ++ q1) ++ q2) (lists h) (uobjs h) (mobjs h))).
  { apply (sound_new_cells h0 (HP (cells h ++ q1) (lists h) (uobjs h) (mobjs h))). apply sound_new_cells, s. }
  set (h2 := HP ((cells h ++ q1) ++ q2) (lists h) (uobjs h) (mobjs h)) in *.
  assert (kk : keeps (cells h) (cells h2)) by (eapply keeps_trans; apply keeps_app).
  assert (sn1 : stored h2 n1 q1).
  { eapply stored_unchanged; [|apply (stored_seq h q1 (lists h) (uobjs h) (mobjs h))]. apply keeps_app. }
  assert (sn2 : stored h2 n2 q2).
  { apply (stored_seq (HP (cells h ++ q1) (lists h) (uobjs h) (mobjs h)) q2 (lists h) (uobjs h) (mobjs h)). }
  assert (r1 : forall c, In c n1 -> length (cells h) <= c < length (cells h ++ q1)).
  { intros y i. apply in_seq in i. rewrite app_length. lia. }
  assert (r2 : forall c, In c n2 -> length (cells h ++ q1) <= c).
  { intros y i. apply in_seq in i. lia. }
  assert (lc := proj1 (unchanged_lengths _ _ (proj1 s))).
  assert (ot : forall y, In y ct -> y < length (cells h)).
  { assert (p := stored_range _ _ _ st). rewrite Forall_forall in p. exact p. }
  assert (ob : forall y, In y cb -> y < length (cells h)).
  { assert (p := stored_range _ _ _ sb). rewrite Forall_forall in p. exact p. }
  destruct (NoDup_app_elim _ _ nd) as (nt & nb & dis).
  assert (lq := app_length (cells h) q1).
  assert (nb' : NoDup (cb ++ n1)).
  { apply NoDup_app_intro; auto; [apply seq_NoDup|]. intros y i j. apply ob in i. apply r1 in j. lia. }
  assert (nt' : NoDup (ct ++ n2)).
  { apply NoDup_app_intro; auto; [apply seq_NoDup|]. intros y i j. apply ot in i. apply r2 in j. lia. }
  assert (stt : stored h2 (ct ++ n2) (t ++ q2)) by (apply stored_app; [eapply stored_unchanged; eassumption|exact sn2]).
  assert (sbb : stored h2 (cb ++ n1) (b ++ q1)) by (apply stored_app; [eapply stored_unchanged; eassumption|exact sn1]).
  assert (s3 := sound_set_list h0 h2 lb (cb ++ n1) s2 fb nb' (stored_range _ _ _ sbb)).
  assert (s4 := sound_set_list h0 _ lt (ct ++ n2) s3 ft nt' (stored_range _ _ _ stt)).
  cbn [cells lists uobjs mobjs h2] in s4. apply k; [exact s4|].
  assert (lt < length (lists h)) by (apply nth_error_Some; congruence).
  assert (lb < length (lists h)) by (apply nth_error_Some; congruence).
  exists (ct ++ n2), (cb ++ n1). constructor; auto; cbn.
  - apply sn_eq. rewrite sn_length. assumption.
  - rewrite sn_neq by congruence. apply sn_eq. assumption.
  - apply NoDup_app_intro; auto. intros y i j. apply in_app_or in i. apply in_app_or in j.
    destruct i as [i|i]; destruct j as [j|j].
    + exact (dis y i j).
    + apply ot in i. apply r1 in j. lia.
    + apply r2 in i. apply ob in j. lia.
    + apply r2 in i. apply r1 in j. lia.
  - unfold fresh in *. rewrite Forall_forall in *. intros y i. rewrite !in_app_iff in i.
    destruct i as [[i|i]|[i|i]].
    + apply fr, in_or_app. now left.
    + apply r2 in i. lia.
    + apply fr, in_or_app. now right.
    + apply r1 in i. lia.
Qed.
Lemma sloop_ok h0 fuel : forall h lt lb t b,
  sound h0 h -> owned h0 h lt lb t b ->
  runs h0 (h_sloop fuel lt lb) h (simplify_loop fuel t b)
    (fun y x h' => owned h0 h' (fst x) (snd x) (fst y) (snd y)).
Proof.
  induction fuel as [|fuel IH]; intros h lt lb t b s o; cbn [h_sloop simplify_loop].
  - apply runs_fail, s.
  - destruct (own_holds _ _ _ _ _ _ o) as [ht hb].
    eapply runs_step; [apply read_half_ok, ht|]. eapply runs_step; [apply read_half_ok, hb|].
    unfold simplify_round.
    destruct (mapM (match_one t b) DECONSTRUCTABLE_UNITS) as [ms|e]; [|exists h; split; [exact s|reflexivity]].
    eapply runs_step; [reflexivity|]. cbn [bind].
    destruct (somes ms) as [|m ms']; [apply runs_ret; assumption|].
    destruct (Qc_eq_bool (sum_matches (m :: ms')) (qc 0)); [apply runs_ret; assumption|].
    destruct (best ms' m) as [u k].
    destruct (dict_get DECONSTRUCTABLE_UNITS u) as [d|]; [|apply runs_fail, s].
    destruct (expand d k) as [[q1 q2]|e]; [|exists h; split; [exact s|reflexivity]].
    eapply runs_step; [reflexivity|]. cbn [bind fst snd].
    apply own_extend with (t := t) (b := b); [exact s|exact o|].
    intros h1 s1 o1.
    destruct (h_cancel_ok h0 h1 lt lb _ _ s1 o1) as (h2 & lt' & lb' & r2 & s2 & o2).
    eapply runs_step; [exact r2|]. cbn [fst snd].
    destruct (cancel_units (t ++ q2) (b ++ q1)) as [t' b']. cbn [fst snd bind] in *.
    destruct o2 as (ct & cb & [e1 e2 ne ft fb nd fr st sb]).
    eapply runs_step; [reflexivity|]. eapply runs_step; [apply get_list_ok; exact e1|].
    eapply runs_step; [apply set_list_eq|]. cbn [cells lists uobjs mobjs].
    set (h3 := HP (cells h2 ++ [BU u k]) (lists h2) (uobjs h2) (mobjs h2)).
    assert (s3 : sound h0 h3) by apply sound_new_cells, s2.
    destruct (NoDup_app_elim _ _ nd) as (nt & nb & dis).
    assert (ot : forall y, In y (ct ++ cb) -> y < length (cells h2)).
    { assert (p := stored_range _ _ _ st). assert (q := stored_range _ _ _ sb). rewrite Forall_forall in p, q.
      intros y i. apply in_app_or in i as [i|i]; auto. }
    assert (lc := proj1 (unchanged_lengths _ _ (proj1 s2))).
    assert (kk : keeps (cells h2) (cells h3)) by apply keeps_app.
    assert (stt : stored h3 (ct ++ [length (cells h2)]) (t' ++ [BU u k])).
    { apply stored_app; [eapply stored_unchanged; eassumption|]. constructor; [|constructor].
      cbn. rewrite nth_error_app2, Nat.sub_diag by lia. reflexivity. }
    assert (nt' : NoDup (ct ++ [length (cells h2)])).
    { apply NoDup_app_intro; auto; [repeat constructor; auto|]. intros y i [<-|[]].
      assert (length (cells h2) < length (cells h2)) by (apply ot, in_or_app; now left). lia. }
    assert (s4 := sound_set_list h0 h3 lt' (ct ++ [length (cells h2)]) s3 ft nt' (stored_range _ _ _ stt)).
    apply IH; [exact s4|]. exists (ct ++ [length (cells h2)]), cb. constructor; auto; cbn.
    + apply sn_eq. apply nth_error_Some. congruence.
    + rewrite sn_neq by congruence. exact e2.
    + apply NoDup_app_intro; auto. intros y i j. apply in_app_or in i as [i|[<-|[]]]; [exact (dis y i j)|].
      assert (length (cells h2) < length (cells h2)) by (apply ot, in_or_app; now right). lia.
    + unfold fresh in *. rewrite Forall_forall in *. intros y i. rewrite !in_app_iff in i.
      destruct i as [[i|[<-|[]]]|i]; [apply fr, in_or_app; now left|lia|apply fr, in_or_app; now right].
    + eapply stored_unchanged; eassumption.
Qed.
Lemma common_ok h0 l : forall h lt lb t b,
  sound h0 h -> owned h0 h lt lb t b ->
  runs h0 (h_common l lt lb) h (common_simpl l t b)
    (fun y x h' => owned h0 h' (fst x) (snd x) (fst y) (snd y)).
Proof.
  induction l as [|[k v] l IH]; intros h lt lb t b s o; cbn [h_common common_simpl].
  - apply runs_ret; assumption.
  - destruct (own_holds _ _ _ _ _ _ o) as [ht hb].
    destruct (parse_units k) as [p|e]; [|exists h; split; [exact s|reflexivity]].
    eapply runs_step; [reflexivity|]. cbn [bind].
    eapply runs_step; [apply read_half_ok, ht|]. eapply runs_step; [apply read_half_ok, hb|].
    destruct (half_eqb (fst p) t && half_eqb (snd p) b); [|apply IH; assumption].
    destruct (parse_units v) as [[q1 q2]|e]; [|exists h; split; [exact s|reflexivity]].
    eapply runs_step; [reflexivity|]. cbn [fst snd].
    destruct (alloc_half_ok h0 h q1 s) as (h1 & l1 & c1 & a1 & s1 & k1).
    eapply runs_step; [exact a1|].
    destruct (alloc_half_ok h0 h1 q2 s1) as (h2 & l2 & c2 & a2 & s2 & k2).
    eapply runs_step; [exact a2|]. apply runs_ret; [exact s2|]. cbn [fst snd].
    exists c1, c2. eapply two_blocks; [exact s|exact k1|exact k2].
Qed.
Lemma h_simplify_ok h0 h lt lb t b :
  sound h0 h -> owned h0 h lt lb t b ->
  runs h0 (h_simplify lt lb) h (simplify_units t b)
    (fun y x h' => owned h0 h' (fst x) (snd x) (fst y) (snd y)).
Proof.
  intros s o. destruct (own_holds _ _ _ _ _ _ o) as [ht hb]. unfold h_simplify, simplify_units.
  eapply runs_step; [apply read_half_ok, ht|]. eapply runs_step; [apply read_half_ok, hb|].
  eapply runs_bind; [apply sloop_ok; eassumption|].
  intros y x h1 s1 o1. apply common_ok; assumption.
Qed.
Lemma owned_swap h0 h lt lb t b : owned h0 h lt lb t b -> owned h0 h lb lt b t.
Proof.
  intros (ct & cb & [e1 e2 ne ft fb nd fr st sb]). exists cb, ct. constructor; auto.
  - eapply Permutation_NoDup; [apply Permutation_app_comm|exact nd].
  - unfold fresh in *. rewrite Forall_forall in *. intros c i. apply fr, in_or_app. apply in_app_or in i. tauto.
Qed.
Lemma combine_owned h0 h lt lb t b :
  sound h0 h -> owned h0 h lt lb t b ->
  exists h', h_combine lt h = (Ok lt, h') /\ sound h0 h' /\ owned h0 h' lt lb (combine_units t) b.
Proof.
  intros s (ct & cb & [e1 e2 ne ft fb nd fr st sb]). destruct (NoDup_app_elim _ _ nd) as (nt & nb & dis).
  destruct (h_combine_ok h lt ct t nt e1 st) as (h' & r & o & st'). exists h'. split; [exact r|].
  assert (ol := proj1 o). split.
  - eapply only_sound; [exact s| |exact o]. eapply fresh_incl; [|exact fr]. intros y i. apply in_or_app. now left.
  - exists ct, cb. constructor; auto; try (rewrite ol; assumption).
    eapply only_stored; [exact o| |exact sb]. intros c i j. exact (dis c j i).
Qed.
Lemma combine_flag h0 h (f : bool) lt lb t b :
  sound h0 h -> owned h0 h lt lb t b ->
  exists h', (if f then h_combine lt else ret lt) h = (Ok lt, h') /\ sound h0 h'
    /\ owned h0 h' lt lb (if f then combine_units t else t) b.
Proof. intros s o. destruct f; [apply combine_owned; assumption|]. exists h. split; [reflexivity|]. auto. Qed.
Lemma h_reduce_tail_ok h0 ct cb h lt lb t b :
  sound h0 h -> holds h lt t -> holds h lb b ->
  runs h0 (h_reduce_tail ct cb lt lb) h (reduce_tail ct cb t b)
    (fun y x h' => owned h0 h' (fst x) (snd x) (fst y) (snd y)).
Proof.
  intros s ht hb. unfold h_reduce_tail, reduce_tail.
  eapply runs_bind; [apply h_deconstruct_ok; eassumption|].
  intros [t1 b1] [lt1 lb1] h1 s1 o1. cbn [fst snd] in *.
  destruct (combine_flag h0 h1 ct lt1 lb1 t1 b1 s1 o1) as (h2 & r2 & s2 & o2).
  eapply runs_step; [exact r2|].
  destruct (combine_flag h0 h2 cb lb1 lt1 b1 _ s2 (owned_swap _ _ _ _ _ _ o2)) as (h3 & r3 & s3 & o3).
  eapply runs_step; [exact r3|]. apply owned_swap in o3.
  destruct (h_cancel_ok h0 h3 lt1 lb1 _ _ s3 o3) as (h4 & lt4 & lb4 & r4 & s4 & o4).
  eapply runs_step; [exact r4|]. cbn [fst snd].
  destruct (cancel_units _ _) as [t4 b4]. cbn [fst snd] in *. apply h_simplify_ok; assumption.
Qed.
Lemma h_reduce_ok h0 ct cb h lt lb t b :
  sound h0 h -> holds h lt t -> holds h lb b ->
  runs h0 (h_reduce ct cb lt lb) h (reduce ct cb t b)
    (fun y x h' => snd x = snd y /\ owned h0 h' (fst (fst x)) (snd (fst x)) (fst (fst y)) (snd (fst y))).
Proof.
  intros s ht hb. unfold h_reduce, reduce.
  eapply runs_bind; [apply h_prefixes_ok; eassumption|].
  intros [[t1 b1] f1] [[lt1 lb1] g1] h1 s1 [e1 o1]. cbn [fst snd] in *. subst g1.
  destruct (own_holds _ _ _ _ _ _ o1) as [ht1 hb1].
  eapply runs_bind; [apply h_reduce_tail_ok; eassumption|].
  intros [t2 b2] [lt2 lb2] h2 s2 o2. cbn [fst snd] in *. apply runs_ret; [exact s2|]. cbn. auto.
Qed.
End Pipe.
