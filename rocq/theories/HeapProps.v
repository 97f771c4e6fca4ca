(** * HeapProps: arithmetic leaves objects alone; sharing between objects *)
From Coq Require Import String Ascii List ZArith QArith Qcanon Bool Lia.
From Verif Require Import Py Num UnitsData UnitsStruct Units Heap HeapSpec HeapFacts HeapPipe HeapOps.
Import ListNotations.
Local Open Scope string_scope.
Local Open Scope list_scope.
Local Open Scope nat_scope.

Section Props.
Context {T : Type} `{NT : Num T}.
Notation heap := (@heap T).
Notation M := (@M T).
Implicit Types h : heap.

Lemma runs_agrees h0 m h r : runs h0 m h r (@res_means T) ->
  unchanged h0 (snd (m h)) /\ wf (snd (m h)) /\ agrees (snd (m h)) (fst (m h)) r.
Proof.
  intros (h' & [u w] & e). destruct r as [p|x].
  - destruct e as (v & e & k). rewrite e. cbn. split; [exact u|]. split; [exact w|]. exists v. auto.
  - rewrite e. cbn. auto.
Qed.
Lemma arithmetic h o p : wf h -> operands h o p ->
  unchanged h (snd (on_heap o h)) /\ wf (snd (on_heap o h)) /\ agrees (snd (on_heap o h)) (fst (on_heap o h)) (on_values p).
Proof.
  intros w k. apply runs_agrees. destruct k; cbn [on_heap on_values].
  - apply h_mul_ok; assumption.
  - apply h_div_ok; assumption.
  - apply h_add_ok; assumption.
  - apply h_sub_ok; assumption.
  - apply h_pow_ok; assumption.
  - apply h_neg_ok; assumption.
Qed.

(** ** Reachable heaps *)
Lemma alloc_both h q1 q2 C (f : nat -> nat -> M C) :
  wf h -> exists l1 l2 c1 c2 h', bindM (alloc_half q1) (fun l1 => bindM (alloc_half q2) (f l1)) h = f l1 l2 h'
    /\ sound h h' /\ own h h' l1 l2 c1 c2 q1 q2 /\ mobjs h' = mobjs h /\ uobjs h' = uobjs h.
Proof.
  intro w. assert (s := sound_refl h w).
  destruct (alloc_half_ok h h q1 s) as (h1 & l1 & c1 & a1 & s1 & k1).
  destruct (alloc_half_ok h h1 q2 s1) as (h2 & l2 & c2 & a2 & s2 & k2).
  exists l1, l2, c1, c2, h2. split; [|split; [exact s2|split; [eapply two_blocks; [exact s|exact k1|exact k2]|]]].
  - unfold bindM. rewrite a1, a2. reflexivity.
  - unfold alloc_half, bindM in a1, a2. rewrite new_cells in a1, a2. injection a1 as <- <-. injection a2 as <- <-. auto.
Qed.
Lemma own_range h0 h l1 l2 c1 c2 b1 b2 : own h0 h l1 l2 c1 c2 b1 b2 -> l1 < length (lists h) /\ l2 < length (lists h).
Proof. intros [e1 e2 _ _ _ _ _ _ _]. split; apply nth_error_Some; congruence. Qed.
Lemma construct_cases h c v s :
  wf h ->
  (s = "" /\ construct c v s None None h = (Ok (HMulti (length (mobjs h))), HP (cells h) (lists h) (uobjs h) (mobjs h ++ [MR c v 0 1])))
  \/ (s <> "" /\ exists e, parse_units s = Raise e /\ construct c v s None None h = (Raise e, h))
  \/ (s <> "" /\ exists t b l1 l2 c1 c2 h', parse_units s = Ok (t, b) /\
       construct c v s None None h = (Ok (HMulti (length (mobjs h))), HP (cells h') (lists h') (uobjs h') (mobjs h' ++ [MR c v l1 l2]))
       /\ sound h h' /\ own h h' l1 l2 c1 c2 t b /\ mobjs h' = mobjs h /\ uobjs h' = uobjs h).
Proof.
  intro w. unfold construct. destruct (String.eqb s "") eqn:e.
  - apply String.eqb_eq in e. left. split; [exact e|reflexivity].
  - right. apply String.eqb_neq in e. unfold bindM at 1, lift at 1. destruct (parse_units s) as [[t b]|x].
    + right. split; [exact e|].
      destruct (alloc_both h t b _ (fun l1 l2 => new_multi (MR c v l1 l2)) w) as (l1 & l2 & c1 & c2 & h' & r & s' & o & em & eu).
      exists t, b, l1, l2, c1, c2, h'. split; [reflexivity|]. split; [|auto].
      etransitivity; [exact r|]. unfold new_multi. rewrite em. reflexivity.
    + left. split; [exact e|]. exists x. auto.
Qed.
Lemma wf_new_multi h r : wf h -> mrt r < length (lists h) -> mrb r < length (lists h) ->
  wf (HP (cells h) (lists h) (uobjs h) (mobjs h ++ [r])).
Proof. intros w i j. apply (sound_new_multi h h r (sound_refl h w) i j). Qed.
Lemma wf_set_multi h m r : wf h -> mrt r < length (lists h) -> mrb r < length (lists h) ->
  wf (HP (cells h) (lists h) (uobjs h) (set_nth m r (mobjs h))).
Proof.
  intros (w1 & w2 & w3) i j. split; [exact w1|split; [|exact w3]]. cbn. intros r' k. apply in_set_nth in k as [->|k]; auto.
Qed.
Lemma multi_convert_cases tb h m target inplace a :
  wf h -> nth_error (mobjs h) m = Some a ->
  match multi_convert_to tb (den_multi h a) target with
  | Raise e => h_multi_convert tb m target inplace h = (Raise e, h)
  | Ok r => exists l1 l2 c1 c2 h',
      h_multi_convert tb m target inplace h =
        (if inplace then (Ok HNone, HP (cells h') (lists h') (uobjs h') (set_nth m (MR (mc r) (mv r) l1 l2) (mobjs h')))
         else (Ok (HMulti (length (mobjs h))), HP (cells h') (lists h') (uobjs h') (mobjs h' ++ [MR (mc r) (mv r) l1 l2])))
      /\ sound h h' /\ own h h' l1 l2 c1 c2 (mtop r) (mbot r) /\ mobjs h' = mobjs h /\ uobjs h' = uobjs h
  end.
Proof.
  intros w e.
  assert (E : h_multi_convert tb m target inplace h =
    match multi_convert_to tb (den_multi h a) target with
    | Raise e => (Raise e, h)
    | Ok r => bindM (alloc_half (mtop r)) (fun lt => bindM (alloc_half (mbot r)) (fun lb =>
        if inplace then bindM (set_multi m (MR (mc r) (mv r) lt lb)) (fun _ => ret HNone)
        else new_multi (MR (mc r) (mv r) lt lb))) h
    end).
  { unfold h_multi_convert, bindM at 1. rewrite (get_multi_ok _ _ _ e). reflexivity. }
  rewrite E. clear E.
  destruct (multi_convert_to tb (den_multi h a) target) as [r|x]; [|reflexivity].
  destruct (alloc_both h (mtop r) (mbot r) _ (fun l1 l2 =>
    if inplace then bindM (set_multi m (MR (mc r) (mv r) l1 l2)) (fun _ => ret HNone)
    else new_multi (MR (mc r) (mv r) l1 l2)) w) as (l1 & l2 & c1 & c2 & h' & k & s' & o & em & eu).
  exists l1, l2, c1, c2, h'. split; [|auto]. rewrite k. destruct inplace; [reflexivity|].
  unfold new_multi. rewrite em. reflexivity.
Qed.
(** Changes of a half through its owner. *)
Lemma append_eq h m a x : wf h -> nth_error (mobjs h) m = Some a -> exists cs, nth_error (lists h) (mrt a) = Some cs /\
  append_top m x h = (Ok tt, HP (cells h ++ [x]) (set_nth (mrt a) (cs ++ [length (cells h)]) (lists h)) (uobjs h) (mobjs h)).
Proof.
  intros (w1 & w2 & w3) e. destruct (w2 a (nth_error_In _ _ e)) as [i _].
  destruct (nth_error (lists h) (mrt a)) as [cs|] eqn:el; [|apply nth_error_None in el; lia].
  exists cs. split; [reflexivity|]. unfold append_top, bindM at 1. rewrite (get_multi_ok _ _ _ e). unfold bindM, new_cell, get_list, set_list. cbn [cells lists uobjs mobjs].
  rewrite el. reflexivity.
Qed.
Lemma append_wf h m x : wf h -> wf (snd (append_top m x h)).
Proof.
  intro w. destruct (nth_error (mobjs h) m) as [a|] eqn:e.
  - destruct (append_eq h m a x w e) as (cs & el & ->). cbn [snd]. destruct w as (w1 & w2 & w3). split; [|split].
    + cbn [cells lists]. intros cs' k. rewrite app_length. cbn [length]. apply in_set_nth in k as [->|k].
      * destruct (w1 cs (nth_error_In _ _ el)) as [n f]. rewrite Forall_forall in f. split.
        -- apply NoDup_app_intro; [exact n|constructor; [intros []|constructor]|]. intros y i [<-|[]]. apply f in i. lia.
        -- apply Forall_forall. intros y i. apply in_app_or in i as [i|[<-|[]]]; [apply f in i|]; lia.
      * destruct (w1 cs' k) as [n f]. split; [exact n|]. eapply Forall_impl; [|exact f]. cbn. intros. lia.
    + cbn [lists mobjs]. intros r k. rewrite sn_length. exact (w2 r k).
    + cbn [lists]. rewrite sn_length. exact w3.
  - unfold append_top, bindM, get_multi. rewrite e. exact w.
Qed.
Lemma combine_eq h m a : wf h -> nth_error (mobjs h) m = Some a -> exists cs b h', nth_error (lists h) (mrt a) = Some cs /\
  combine_top m h = (Ok tt, h') /\ only h h' cs /\ stored h cs b /\ stored h' cs (combine_units b).
Proof.
  intros w e. destruct w as (w1 & w2 & w3). assert (w : wf h) by (split; auto).
  destruct (w2 a (nth_error_In _ _ e)) as [i _].
  destruct (nth_error (lists h) (mrt a)) as [cs|] eqn:el; [|apply nth_error_None in el; lia].
  destruct (w1 cs (nth_error_In _ _ el)) as [n f].
  assert (k : exists b, stored h cs b).
  { clear -f. induction f as [|c cs p f [b IH]]; [exists []; constructor|].
    destruct (nth_error (cells h) c) as [x|] eqn:ex; [|apply nth_error_None in ex; lia]. exists (x :: b). constructor; assumption. }
  destruct k as [b sb]. destruct (h_combine_ok h (mrt a) cs b n el sb) as (h' & r & o & s').
  exists cs, b, h'. split; [reflexivity|]. split; [|auto]. unfold combine_top, bindM at 1. rewrite (get_multi_ok _ _ _ e). unfold bindM. rewrite r. reflexivity.
Qed.
Lemma only_wf h h' w : only h h' w -> wf h -> wf h'.
Proof. intros (p1 & p2 & p3 & p4 & _) (w1 & w2 & w3). unfold wf. rewrite p1, p3, p4. repeat split; try apply w1; try apply w2; auto. Qed.
Lemma combine_wf h m : wf h -> wf (snd (combine_top m h)).
Proof.
  intro w. destruct (nth_error (mobjs h) m) as [a|] eqn:e.
  - destruct (combine_eq h m a w e) as (cs & b & h' & _ & -> & o & _). exact (only_wf _ _ _ o w).
  - unfold combine_top, bindM, get_multi. rewrite e. exact w.
Qed.
Lemma reachable_wf tb h : reachable tb h -> wf h.
Proof.
  intro r. induction r as [|h u r IH|h c v s r IH|h o p r IH k|h m target ip r IH|h n target ip r IH|h m x r IH|h m r IH].
  - split; [|split].
    + intros cs [<-|[<-|[]]]; split; constructor.
    + intros x [].
    + cbn. lia.
  - exact IH.
  - destruct (construct_cases h c v s IH) as [[_ ->]|[(_ & e & _ & ->)|(_ & t & b & l1 & l2 & c1 & c2 & h' & _ & -> & [_ w'] & o & em & _)]]; cbn [snd].
    + destruct IH as (w1 & w2 & w3). apply wf_new_multi; [split; auto|cbn; lia|cbn; lia].
    + exact IH.
    + destruct (own_range _ _ _ _ _ _ _ _ o). apply wf_new_multi; assumption.
  - apply (arithmetic h o p IH k).
  - destruct (nth_error (mobjs h) m) as [a|] eqn:e.
    + assert (k := multi_convert_cases tb h m target ip a IH e).
      destruct (multi_convert_to tb (den_multi h a) target) as [x|x]; [|rewrite k; exact IH].
      destruct k as (l1 & l2 & c1 & c2 & h' & -> & [_ w'] & o & em & _). destruct (own_range _ _ _ _ _ _ _ _ o).
      destruct ip; cbn [snd]; [apply wf_set_multi|apply wf_new_multi]; assumption.
    + unfold h_multi_convert, bindM, get_multi. rewrite e. exact IH.
  - unfold h_unit_convert, bindM at 1, get_unit. destruct (nth_error (uobjs h) n) as [a|]; [|exact IH].
    unfold bindM at 1, lift. destruct (unit_convert_to tb a target) as [x|x]; [|exact IH].
    destruct (same_target a target); [exact IH|]. destruct ip; exact IH.
  - apply append_wf, IH.
  - apply combine_wf, IH.
Qed.

(** ** Separate storage *)
Definition new_storage h0 h m : Prop :=
  (forall l, list_of h m l -> length (lists h0) <= l) /\ (forall c, cell_of h m c -> length (cells h0) <= c).
Lemma holds_changed h h' m l b : changed_storage m h h' ->
  (~ list_of h m l) -> (forall cs c, nth_error (lists h) l = Some cs -> In c cs -> ~ cell_of h m c) ->
  holds h l b -> holds h' l b.
Proof.
  intros (k1 & k2 & _) nl nc (cs & e & s). exists cs. split; [apply k2; assumption|].
  assert (d : forall c, In c cs -> ~ cell_of h m c) by (intros c i; eapply nc; eassumption).
  clear e nc nl. induction s as [|c x cs b e s IH]; constructor.
  - apply k1; [|exact e]. apply d. now left.
  - apply IH. intros c' i. apply d. now right.
Qed.
(** Whatever happens to the storage of a MultiUnit made after [h0], the objects of
    [h0] keep their meaning ... *)
Lemma new_keeps_old h0 h h' m : wf h0 -> unchanged h0 h -> new_storage h0 h m -> changed_storage m h h' ->
  forall x p, means h0 x p -> means h' x p.
Proof.
  intros (w1 & w2 & w3) u [nl nc] ch x p k. destruct k as [y| | |n v e|n r t b e ht hb]; try constructor.
  - apply ch, u, e.
  - apply ch, u, e.
  - assert (ht' := holds_unchanged _ _ _ _ u ht). destruct ht as (cs & e1 & s1).
    eapply holds_changed; [exact ch| | |exact ht'].
    + intro i. apply nl in i. assert (mrt r < length (lists h0)) by (apply nth_error_Some; congruence). lia.
    + intros cs' c e2 i k. apply nc in k. destruct u as (_ & u2 & _). rewrite (u2 _ _ e1) in e2. injection e2 as <-.
      destruct (w1 cs (nth_error_In _ _ e1)) as [_ f]. rewrite Forall_forall in f. apply f in i. lia.
  - assert (hb' := holds_unchanged _ _ _ _ u hb). destruct hb as (cs & e1 & s1).
    eapply holds_changed; [exact ch| | |exact hb'].
    + intro i. apply nl in i. assert (mrb r < length (lists h0)) by (apply nth_error_Some; congruence). lia.
    + intros cs' c e2 i k. apply nc in k. destruct u as (_ & u2 & _). rewrite (u2 _ _ e1) in e2. injection e2 as <-.
      destruct (w1 cs (nth_error_In _ _ e1)) as [_ f]. rewrite Forall_forall in f. apply f in i. lia.
Qed.
(** ... and the new MultiUnit keeps its meaning whatever happens to theirs. *)
Lemma old_keeps_new h0 h h' m n : wf h0 -> unchanged h0 h -> new_storage h0 h m -> n < length (mobjs h0) ->
  changed_storage n h h' -> forall p, means h (HMulti m) p -> means h' (HMulti m) p.
Proof.
  intros (w1 & w2 & w3) u [nl nc] ln ch p k. inversion k as [| | | |? r t b e ht hb]; subst.
  destruct (nth_error (mobjs h0) n) as [rn|] eqn:en; [|apply nth_error_None in en; lia].
  assert (en' : nth_error (mobjs h) n = Some rn) by (apply u, en).
  destruct (w2 rn (nth_error_In _ _ en)) as [r1 r2].
  assert (ol : forall l, list_of h n l -> l < length (lists h0)).
  { intros l (r' & e' & q). rewrite en' in e'. injection e' as <-. destruct q as [->| ->]; assumption. }
  assert (oc : forall c, cell_of h n c -> c < length (cells h0)).
  { intros c (l & cs & q & e' & i). apply ol in q.
    destruct (nth_error (lists h0) l) as [cs0|] eqn:e0; [|apply nth_error_None in e0; lia].
    destruct u as (_ & u2 & _). rewrite (u2 _ _ e0) in e'. injection e' as <-.
    destruct (w1 cs0 (nth_error_In _ _ e0)) as [_ f]. rewrite Forall_forall in f. apply f, i. }
  assert (lt : list_of h m (mrt r)) by (exists r; auto).
  assert (lb : list_of h m (mrb r)) by (exists r; auto).
  constructor.
  - apply ch, e.
  - eapply holds_changed; [exact ch| | |exact ht].
    + intro i. apply ol in i. apply nl in lt. lia.
    + intros cs c ec i q. apply oc in q. assert (k2 : length (cells h0) <= c) by (apply nc; exists (mrt r), cs; auto). lia.
  - eapply holds_changed; [exact ch| | |exact hb].
    + intro i. apply ol in i. apply nl in lb. lia.
    + intros cs c ec i q. apply oc in q. assert (k2 : length (cells h0) <= c) by (apply nc; exists (mrb r), cs; auto). lia.
Qed.
Lemma own_new_storage h0 h lt lb ct cb t b m c v :
  nth_error (mobjs h) m = Some (MR c v lt lb) -> own h0 h lt lb ct cb t b -> new_storage h0 h m.
Proof.
  intros e [e1 e2 ne ft fb nd fr st sb]. split.
  - intros l (r & e' & q). rewrite e in e'. injection e' as <-. destruct q as [->| ->]; assumption.
  - intros x (l & cs & (r & e' & q) & el & i). rewrite e in e'. injection e' as <-. cbn in q.
    unfold fresh in fr. rewrite Forall_forall in fr. apply fr, in_or_app.
    destruct q as [->| ->]; [left|right]; congruence.
Qed.

Lemma new_independent h0 h m : wf h0 -> unchanged h0 h -> new_storage h0 h m -> independent h0 h m.
Proof.
  intros w u n. split.
  - intros h' x p ch. eapply new_keeps_old; eassumption.
  - intros h' k p lk ch. eapply old_keeps_new; eassumption.
Qed.
Lemma built_independent h c v s : wf h -> s <> "" ->
  match construct c v s None None h with
  | (Ok (HMulti m), h') => independent h h' m
  | (Ok _, _) => False
  | (Raise _, h') => h' = h
  end.
Proof.
  intros w ns. destruct (construct_cases h c v s w) as [[e _]|[(_ & e & _ & ->)|(_ & t & b & l1 & l2 & c1 & c2 & h' & _ & -> & [u w'] & o & em & _)]].
  - contradiction.
  - reflexivity.
  - destruct (own_range _ _ _ _ _ _ _ _ o). apply new_independent; [exact w| |].
    + apply (sound_new_multi h h' (MR c v l1 l2)); [split|..]; assumption.
    + apply own_new_storage with (lt := l1) (lb := l2) (ct := c1) (cb := c2) (t := t) (b := b) (c := c) (v := v).
      * cbn. rewrite em, nth_error_app2, Nat.sub_diag by lia. reflexivity.
      * destruct o as [e1 e2 ne ft fb nd fr st sb]. constructor; auto.
Qed.

(** ** Products and powers have storage of their own *)
Definition fresh_owner h0 h m : Prop := exists r t b, nth_error (mobjs h) m = Some r /\ owned h0 h (mrt r) (mrb r) t b.
Definition separate h0 h m : Prop := independent h0 h m /\ fresh_owner h0 h m.
Definition fresh_result h0 : pyval T -> hval -> heap -> Prop :=
  fun p v h => means h v p /\ forall m, v = HMulti m -> new_storage h0 h m /\ fresh_owner h0 h m.
Lemma new_multi_fresh h0 h c v lt lb t b : sound h0 h -> owned h0 h lt lb t b ->
  runs h0 (new_multi (MR c v lt lb)) h (Ok (VMulti (MO c v t b))) (fresh_result h0).
Proof.
  intros s o. assert (hh := own_holds _ _ _ _ _ _ o). destruct hh as [ht hb].
  eapply runs_last; [reflexivity| |].
  - apply sound_new_multi; [exact s|eapply holds_range, ht|eapply holds_range, hb].
  - split.
    + apply (means_multi _ _ (MR c v lt lb)); cbn.
      * rewrite nth_error_app2, Nat.sub_diag by lia. reflexivity.
      * exact ht.
      * exact hb.
    + intros m [= <-].
      assert (e : nth_error (mobjs h ++ [MR c v lt lb]) (length (mobjs h)) = Some (MR c v lt lb)) by (rewrite nth_error_app2, Nat.sub_diag by lia; reflexivity).
      split; [|exists (MR c v lt lb), t, b; split; [exact e|]; destruct o as (ct & cb & [e1 e2 ne ft fb nd fr st sb]); exists ct, cb; constructor; auto].
      destruct o as (ct & cb & o).
      apply own_new_storage with (lt := lt) (lb := lb) (ct := ct) (cb := cb) (t := t) (b := b) (c := c) (v := v).
      * cbn. rewrite nth_error_app2, Nat.sub_diag by lia. reflexivity.
      * destruct o as [e1 e2 ne ft fb nd fr st sb]. constructor; auto.
Qed.
Lemma fresh_num h0 h x : sound h0 h -> runs h0 (ret (HNum x)) h (Ok (VNum x)) (fresh_result h0).
Proof. intro s. apply runs_ret; [exact s|]. split; [constructor|discriminate]. Qed.
Lemma fresh_unit h0 h u : sound h0 h -> runs h0 (new_unit u) h (Ok (VUnit u)) (fresh_result h0).
Proof.
  intro s. eapply runs_last; [reflexivity|apply sound_new_unit, s|]. split; [|discriminate].
  constructor. cbn. rewrite nth_error_app2, Nat.sub_diag by lia. reflexivity.
Qed.
Lemma runs_fresh h m r : wf h -> runs h m h r (fresh_result h) ->
  match m h with
  | (Ok (HMulti k), h') => separate h h' k
  | _ => True
  end.
Proof.
  intros w (h' & [u w'] & e). destruct r as [p|x].
  - destruct e as (v & -> & k & f). destruct v as [| | | |k']; auto. destruct (f k' eq_refl). split; [apply new_independent; auto|assumption].
  - rewrite e. exact I.
Qed.
Lemma product_independent h m n : wf h -> m < length (mobjs h) -> n < length (mobjs h) ->
  (forall r, In r (mobjs h) -> exists t b, holds h (mrt r) t /\ holds h (mrb r) b) ->
  match h_mul (HMulti m) (HMulti n) h with
  | (Ok (HMulti k), h') => separate h h' k
  | _ => True
  end.
Proof.
  intros w lm ln al. assert (S0 := sound_refl h w).
  destruct (nth_error (mobjs h) m) as [a|] eqn:ea; [|apply nth_error_None in ea; lia].
  destruct (nth_error (mobjs h) n) as [r|] eqn:er; [|apply nth_error_None in er; lia].
  destruct (al a (nth_error_In _ _ ea)) as (t & bt & ht & hb).
  destruct (al r (nth_error_In _ _ er)) as (t2 & b2 & ht2 & hb2).
  apply runs_fresh with (r := multi_mul (MO (mrc a) (mrv a) t bt) (VMulti (MO (mrc r) (mrv r) t2 b2))); [exact w|].
  cbn [h_mul multi_mul mtop mbot mv mc]. unfold h_multi_mul.
  eapply runs_step; [apply get_multi_ok, ea|]. eapply runs_step; [apply get_multi_ok, er|].
  eapply join_copies; [exact S0|exact ht|exact ht2|]. intros lt h1 s1 u1 k1.
  eapply join_copies; [exact s1|eapply holds_unchanged; [exact u1|exact hb]|eapply holds_unchanged; [exact u1|exact hb2]|]. intros lb h2 s2 u2 k2.
  eapply runs_bind; [apply h_reduce_ok; [exact s2|eapply holds_unchanged; [exact u2|exact k1]|exact k2]|].
  intros [[t3 b3] f3] [[lt3 lb3] g3] h3 s3 [e3 o3]. cbn [fst snd] in *. subst g3.
  apply new_multi_fresh; assumption.
Qed.
Lemma shape_div_fresh h0 h v lt lb t b : sound h0 h -> owned h0 h lt lb t b ->
  runs h0 (h_shape_div v lt lb) h (Ok (shape_div v t b)) (fresh_result h0).
Proof.
  intros s o. destruct (own_holds _ _ _ _ _ _ o) as [ht hb]. unfold h_shape_div, shape_div.
  eapply runs_step; [apply read_half_ok, ht|]. eapply runs_step; [apply read_half_ok, hb|].
  destruct t as [|x [|x' t]]; destruct b as [|y [|y' b]];
    try (apply fresh_num, s); try (apply fresh_unit, s); apply new_multi_fresh; assumption.
Qed.
Lemma quotient_independent h m n : wf h -> m < length (mobjs h) -> n < length (mobjs h) ->
  (forall r, In r (mobjs h) -> exists t b, holds h (mrt r) t /\ holds h (mrb r) b) ->
  match h_div (HMulti m) (HMulti n) h with
  | (Ok (HMulti k), h') => separate h h' k
  | _ => True
  end.
Proof.
  intros w lm ln al. assert (S0 := sound_refl h w).
  destruct (nth_error (mobjs h) m) as [a|] eqn:ea; [|apply nth_error_None in ea; lia].
  destruct (nth_error (mobjs h) n) as [r|] eqn:er; [|apply nth_error_None in er; lia].
  destruct (al a (nth_error_In _ _ ea)) as (t & bt & ht & hb).
  destruct (al r (nth_error_In _ _ er)) as (t2 & b2 & ht2 & hb2).
  apply runs_fresh with (r := multi_div (MO (mrc a) (mrv a) t bt) (VMulti (MO (mrc r) (mrv r) t2 b2))); [exact w|].
  cbn [h_div multi_div mtop mbot mv mc]. unfold h_multi_div.
  eapply runs_step; [apply get_multi_ok, ea|]. eapply runs_step; [apply get_multi_ok, er|].
  eapply runs_step; [apply read_half_ok, ht|]. eapply runs_step; [apply read_half_ok, ht2|].
  eapply runs_step; [apply read_half_ok, hb|]. eapply runs_step; [apply read_half_ok, hb2|].
  destruct (half_eqb t t2 && half_eqb bt b2).
  { apply runs_rmap; [exact S0|]. intro q. apply fresh_num, S0. }
  eapply join_copies; [exact S0|exact ht|exact hb2|]. intros lt h1 s1 u1 k1.
  eapply join_copies; [exact s1|eapply holds_unchanged; [exact u1|exact hb]|eapply holds_unchanged; [exact u1|exact ht2]|]. intros lb h2 s2 u2 k2.
  eapply runs_bind; [apply h_reduce_ok; [exact s2|eapply holds_unchanged; [exact u2|exact k1]|exact k2]|].
  intros [[t3 b3] f3] [[lt3 lb3] g3] h3 s3 [e3 o3]. cbn [fst snd] in *. subst g3.
  apply runs_pure; [exact s3|]. intro q. apply shape_div_fresh; assumption.
Qed.
Lemma wf_holds h l : wf h -> l < length (lists h) -> exists b, holds h l b.
Proof.
  intros (w & _) i. destruct (nth_error (lists h) l) as [cs|] eqn:e; [|apply nth_error_None in e; lia].
  destruct (w cs (nth_error_In _ _ e)) as [_ f].
  assert (k : exists b, stored h cs b).
  { clear e. induction f as [|c cs p f [b IH]]; [exists []; constructor|].
    destruct (nth_error (cells h) c) as [x|] eqn:ex; [|apply nth_error_None in ex; lia].
    exists (x :: b). constructor; assumption. }
  destruct k as [b k]. exists b, cs. auto.
Qed.
Lemma wf_multis h : wf h -> forall r, In r (mobjs h) -> exists t b, holds h (mrt r) t /\ holds h (mrb r) b.
Proof.
  intros w r i. destruct w as (w1 & w2 & w3). destruct (w2 r i) as [i1 i2].
  assert (w : wf h) by (split; auto).
  destruct (wf_holds h _ w i1) as [t ht]. destruct (wf_holds h _ w i2) as [b hb]. eauto.
Qed.

Lemma means_range h m p : means h (HMulti m) p -> m < length (mobjs h).
Proof. intro k. inversion k. apply nth_error_Some. congruence. Qed.
Lemma reduced_independent h m n p q : wf h -> means h (HMulti m) p -> means h (HMulti n) q ->
  forall o, o = Mul (HMulti m) (HMulti n) \/ o = Div (HMulti m) (HMulti n) ->
  match on_heap o h with
  | (Ok (HMulti k), h') => separate h h' k
  | _ => True
  end.
Proof.
  intros w km kn o [->| ->]; cbn [on_heap]; [apply product_independent|apply quotient_independent];
    eauto using means_range, wf_multis.
Qed.

(** ** Sharing *)
Lemma sharing h h1 m k a : wf h -> unchanged h h1 -> means h (HMulti m) a ->
  (exists r, nth_error (mobjs h) m = Some r /\ list_of h1 k (mrt r)) -> ~ independent h h1 k.
Proof.
  intros w u ma (r & er & lk) [ind _].
  inversion ma as [| | | |? r' t b er' ht hb]; subst. rewrite er in er'. injection er' as <-.
  destruct ht as (cs & ec & sc).
  set (h2 := HP (cells h1 ++ [BU "m" (eint 1)]) (set_nth (mrt r) (cs ++ [length (cells h1)]) (lists h1)) (uobjs h1) (mobjs h1)).
  assert (ch : changed_storage k h1 h2).
  { split; [|split; [|split]]; cbn.
    - intros c x _ e. apply keeps_app, e.
    - intros l x nl e. rewrite sn_neq; [exact e|]. intros <-. exact (nl lk).
    - apply keeps_refl.
    - apply keeps_refl. }
  assert (bad := ind h2 _ _ ch ma). inversion bad as [| | | |? r2 t2 b2 e2 ht2 hb2]; subst.
  assert (e3 : nth_error (mobjs h1) m = Some r) by (apply u, er). cbn in e2. rewrite e3 in e2. injection e2 as <-.
  destruct ht2 as (cs2 & e4 & s4). cbn in e4.
  assert (e5 : nth_error (lists h1) (mrt r) = Some cs) by (apply u, ec).
  rewrite sn_eq in e4 by (apply nth_error_Some; congruence). injection e4 as <-.
  apply stored_length in s4. apply stored_length in sc. rewrite app_length in s4. cbn in s4. lia.
Qed.
Lemma list_of_new h r m l : m = length (mobjs h) -> l = mrt r \/ l = mrb r ->
  list_of (HP (cells h) (lists h) (uobjs h) (mobjs h ++ [r])) m l.
Proof. intros -> q. exists r. split; [cbn; rewrite nth_error_app2, Nat.sub_diag by lia; reflexivity|exact q]. Qed.
Lemma scaling_shares h m o a : wf h -> means h (HMulti m) a -> scaling m o ->
  match on_heap o h with
  | (Ok (HMulti k), h') => ~ independent h h' k
  | (Ok (HNone), _) | (Ok HObj, _) | (Ok (HUnit _), _) | (Ok (HNum _), _) => False
  | (Raise _, h') => h' = h
  end.
Proof.
  intros w ma sc. assert (ma0 := ma).
  inversion ma as [| | | |? r t b er ht hb]; subst.
  assert (new : forall c v x y, (mrt r = x \/ mrt r = y) -> ~ independent h (HP (cells h) (lists h) (uobjs h) (mobjs h ++ [MR c v x y])) (length (mobjs h))).
  { intros c v x y q. eapply sharing; [exact w| |exact ma0|].
    - repeat split; cbn; try apply keeps_refl. apply keeps_app.
    - exists r. split; [exact er|]. apply list_of_new; [reflexivity|exact q]. }
  destruct sc as [x|x|x|x| |n|n]; cbn [on_heap h_mul h_div h_neg h_add h_sub].
  - unfold h_multi_mul, bindM at 1. rewrite (get_multi_ok _ _ _ er). apply new. now left.
  - unfold h_multi_rmul, bindM at 1. rewrite (get_multi_ok _ _ _ er). apply new. now left.
  - unfold h_multi_div, bindM at 1. rewrite (get_multi_ok _ _ _ er). unfold bindM, lift.
    destruct (pydiv (mrv r) x); [apply new; now left|reflexivity].
  - unfold h_multi_rdiv, bindM at 1. rewrite (get_multi_ok _ _ _ er). unfold bindM, lift.
    destruct (pydiv x (mrv r)); [apply new; now right|reflexivity].
  - unfold h_multi_neg, bindM. rewrite (get_multi_ok _ _ _ er). apply new. now left.
  - unfold h_multi_add, bindM at 1. rewrite (get_multi_ok _ _ _ er). unfold bindM at 1.
    destruct (nth_error (mobjs h) n) as [r2|] eqn:e2; [rewrite (get_multi_ok _ _ _ e2)|unfold get_multi; rewrite e2; reflexivity].
    destruct (mcls_eqb (mrc r) (mrc r2)); [|reflexivity].
    destruct (wf_multis h w r2 (nth_error_In _ _ e2)) as (t2 & b2 & ht2 & hb2).
    unfold h_same_units, bindM. rewrite (read_half_ok _ _ _ ht), (read_half_ok _ _ _ ht2), (read_half_ok _ _ _ hb), (read_half_ok _ _ _ hb2).
    unfold ret. destruct (half_eqb t t2 && half_eqb b b2); [apply new; now left|reflexivity].
  - unfold h_multi_sub, bindM at 1. rewrite (get_multi_ok _ _ _ er). unfold bindM at 1.
    destruct (nth_error (mobjs h) n) as [r2|] eqn:e2; [rewrite (get_multi_ok _ _ _ e2)|unfold get_multi; rewrite e2; reflexivity].
    destruct (wf_multis h w r2 (nth_error_In _ _ e2)) as (t2 & b2 & ht2 & hb2).
    unfold h_same_units, bindM. rewrite (read_half_ok _ _ _ ht), (read_half_ok _ _ _ ht2), (read_half_ok _ _ _ hb), (read_half_ok _ _ _ hb2).
    unfold ret. destruct (half_eqb t t2 && half_eqb b b2); [apply new; now left|reflexivity].
Qed.
Lemma default_shared h c v c' v' : wf h ->
  exists m h1 n h2, construct c v "" None None h = (Ok (HMulti m), h1)
    /\ construct c' v' "" None None h1 = (Ok (HMulti n), h2) /\ ~ independent h1 h2 n.
Proof.
  intro w. destruct w as (w1 & w2 & w3). assert (w : wf h) by (split; auto).
  eexists _, _, _, _. split; [reflexivity|]. split; [reflexivity|]. cbn [cells lists uobjs mobjs].
  set (h1 := HP (cells h) (lists h) (uobjs h) (mobjs h ++ [MR c v 0 1])).
  assert (wf1 : wf h1) by (apply wf_new_multi; [exact w|cbn; lia|cbn; lia]).
  destruct (wf_holds h1 0 wf1) as [t ht]; [cbn; lia|]. destruct (wf_holds h1 1 wf1) as [b hb]; [cbn; lia|].
  assert (e : nth_error (mobjs h1) (length (mobjs h)) = Some (MR c v 0 1)).
  { cbn. rewrite nth_error_app2, Nat.sub_diag by lia. reflexivity. }
  eapply sharing with (m := length (mobjs h)); [exact wf1| |exact (means_multi h1 _ (MR c v 0 1) t b e ht hb)|].
  - repeat split; cbn; try apply keeps_refl. apply keeps_app.
  - exists (MR c v 0 1). split; [exact e|]. apply (list_of_new h1 (MR c' v' 0 1)); [reflexivity|now left].
Qed.

(** ** Conversion *)
Lemma nth_stored h cs b : stored h cs b -> map (fun c => nth c (cells h) (BU "" (eint 0))) cs = b.
Proof.
  intro s. induction s as [|c x cs b e s IH]; [reflexivity|]. cbn. rewrite IH. f_equal. apply nth_error_nth, e.
Qed.
Lemma holds_den h l b : holds h l b -> den_half h l = b.
Proof.
  intros (cs & e & s). unfold den_half. rewrite (nth_error_nth _ _ _ e). apply nth_stored, s.
Qed.
Lemma multi_convert_inplace tb h m a target : wf h -> means h (HMulti m) (VMulti a) ->
  match multi_convert_to tb a target with
  | Ok b => exists h', h_multi_convert tb m target true h = (Ok HNone, h') /\ wf h' /\ means h' (HMulti m) (VMulti b)
      /\ (forall x p, x <> HMulti m -> means h x p -> means h' x p)
  | Raise e => h_multi_convert tb m target true h = (Raise e, h)
  end.
Proof.
  intros w ma. inversion ma as [| | | |? r t b er ht hb]; subst.
  assert (k := multi_convert_cases tb h m target true r w er). unfold den_multi in k.
  rewrite (holds_den _ _ _ ht), (holds_den _ _ _ hb) in k.
  destruct (multi_convert_to tb _ target) as [x|x]; [|exact k].
  destruct k as (l1 & l2 & c1 & c2 & h' & k & [u w'] & o & em & eu). eexists. split; [exact k|].
  destruct (own_range _ _ _ _ _ _ _ _ o) as [i1 i2]. destruct o as [e1 e2 ne ft fb nd fr st sb].
  assert (lm : m < length (mobjs h')) by (rewrite em; apply nth_error_Some; congruence).
  split; [apply wf_set_multi; assumption|]. split.
  - destruct x as [xc xv xt xb]. cbn [mc mv mtop mbot] in *.
    apply (means_multi _ m (MR xc xv l1 l2)); cbn; [apply sn_eq, lm| |].
    + exists c1. auto.
    + exists c2. auto.
  - intros y p ne' my. assert (my' := means_unchanged _ _ _ _ u my). destruct my'; try (constructor; assumption).
    constructor; auto. cbn. rewrite sn_neq; [assumption|]. congruence.
Qed.
Lemma multi_convert_new tb h m a target : wf h -> means h (HMulti m) (VMulti a) ->
  match multi_convert_to tb a target with
  | Ok b => exists k h', h_multi_convert tb m target false h = (Ok (HMulti k), h') /\ wf h' /\ unchanged h h'
      /\ means h' (HMulti k) (VMulti b) /\ independent h h' k
  | Raise e => h_multi_convert tb m target false h = (Raise e, h)
  end.
Proof.
  intros w ma. inversion ma as [| | | |? r t b er ht hb]; subst.
  assert (k := multi_convert_cases tb h m target false r w er). unfold den_multi in k.
  rewrite (holds_den _ _ _ ht), (holds_den _ _ _ hb) in k.
  destruct (multi_convert_to tb _ target) as [x|x]; [|exact k].
  destruct k as (l1 & l2 & c1 & c2 & h' & k & sn & o & em & eu). eexists _, _. split; [exact k|].
  destruct (own_range _ _ _ _ _ _ _ _ o) as [i1 i2].
  assert (s2 := sound_new_multi h h' (MR (mc x) (mv x) l1 l2) sn i1 i2).
  assert (e3 : nth_error (mobjs h' ++ [MR (mc x) (mv x) l1 l2]) (length (mobjs h)) = Some (MR (mc x) (mv x) l1 l2)).
  { rewrite em, nth_error_app2, Nat.sub_diag by lia. reflexivity. }
  destruct o as [e1 e2 ne ft fb nd fr st sb].
  split; [apply s2|]. split; [apply s2|]. split.
  - destruct x as [xc xv xt xb]. cbn [mc mv mtop mbot] in *.
    apply (means_multi _ _ (MR xc xv l1 l2)); cbn; [exact e3| |].
    + exists c1. auto.
    + exists c2. auto.
  - apply new_independent; [exact w|apply s2|]. eapply own_new_storage; [exact e3|].
    instantiate (1 := mbot x). instantiate (1 := mtop x). instantiate (1 := c2). instantiate (1 := c1). constructor; auto.
Qed.
Lemma unit_convert_eq tb h n u target ip : nth_error (uobjs h) n = Some u ->
  h_unit_convert tb n target ip h =
    match unit_convert_to tb u target with
    | Raise e => (Raise e, h)
    | Ok w =>
        if same_target u target then (Ok (HUnit n), h)
        else if ip then (Ok HNone, HP (cells h) (lists h) (set_nth n w (uobjs h)) (mobjs h))
        else (Ok (HUnit (length (uobjs h))), HP (cells h) (lists h) (uobjs h ++ [w]) (mobjs h))
    end.
Proof.
  intro e. unfold h_unit_convert, bindM, lift. rewrite (get_unit_ok _ _ _ e).
  destruct (unit_convert_to tb u target) as [w|x]; [|reflexivity].
  destruct (same_target u target); [reflexivity|]. destruct ip; reflexivity.
Qed.
Lemma unit_convert_ip tb h n u target : wf h -> nth_error (uobjs h) n = Some u -> same_target u target = false ->
  match unit_convert_to tb u target with
  | Ok w => exists h', h_unit_convert tb n target true h = (Ok HNone, h') /\ wf h' /\ means h' (HUnit n) (VUnit w)
      /\ (forall x p, x <> HUnit n -> means h x p -> means h' x p)
  | Raise e => h_unit_convert tb n target true h = (Raise e, h)
  end.
Proof.
  intros wh e st. rewrite (unit_convert_eq _ _ _ _ _ _ e). rewrite st.
  destruct (unit_convert_to tb u target) as [w|x]; [|reflexivity].
  eexists. split; [reflexivity|]. split; [exact wh|]. split.
  - constructor. cbn. apply sn_eq, nth_error_Some. congruence.
  - intros y p ne' my. destruct my as [z| | |k v ek|k r t b er ht hb]; try (constructor; assumption).
    constructor. cbn. rewrite sn_neq; [assumption|]. congruence.
Qed.
Lemma unit_convert_fresh tb h n u target : wf h -> nth_error (uobjs h) n = Some u -> same_target u target = false ->
  match unit_convert_to tb u target with
  | Ok w => exists k h', h_unit_convert tb n target false h = (Ok (HUnit k), h') /\ k <> n /\ unchanged h h' /\ means h' (HUnit k) (VUnit w)
  | Raise e => h_unit_convert tb n target false h = (Raise e, h)
  end.
Proof.
  intros wh e st. rewrite (unit_convert_eq _ _ _ _ _ _ e). rewrite st.
  destruct (unit_convert_to tb u target) as [w|x]; [|reflexivity].
  eexists _, _. split; [reflexivity|]. split; [|split].
  - assert (n < length (uobjs h)) by (apply nth_error_Some; congruence). lia.
  - repeat split; cbn; try apply keeps_refl. apply keeps_app.
  - constructor. cbn. rewrite nth_error_app2, Nat.sub_diag by lia. reflexivity.
Qed.
Lemma split_on_none c s : has_char c s = false -> split_on c s = [s].
Proof.
  induction s as [|a s IH]; [reflexivity|]. cbn. destruct (Ascii.eqb a c); [discriminate|]. cbn. intro k. rewrite IH by exact k. reflexivity.
Qed.
Lemma same_unit_self tb h n u ip : nth_error (uobjs h) n = Some u -> has_char "^" (un u) = false -> mem_str (un u) UNIT_COMPOSITES = false ->
  h_unit_convert tb n (un u) ip h = (Ok (HUnit n), h).
Proof.
  intros e nc c. rewrite (unit_convert_eq _ _ _ _ _ _ e).
  assert (r : unit_convert_to tb u (un u) = Ok u).
  { unfold unit_convert_to. rewrite c, nc. unfold unit_convert_core. rewrite String.eqb_refl. reflexivity. }
  assert (s : same_target u (un u) = true).
  { unfold same_target. rewrite c, (split_on_none _ _ nc). apply String.eqb_refl. }
  rewrite r, s. reflexivity.
Qed.
End Props.
