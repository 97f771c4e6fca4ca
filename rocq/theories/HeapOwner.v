(** * HeapOwner: changes of a half show in the objects that share it, and in no other *)
From Coq Require Import String Ascii List ZArith QArith Qcanon Bool Lia.
From Verif Require Import Py Num UnitsData UnitsStruct Units Heap HeapSpec HeapFacts HeapPipe HeapOps HeapProps HeapShare.
Import ListNotations.
Local Open Scope string_scope.
Local Open Scope list_scope.
Local Open Scope nat_scope.

Section Owner.
Context {T : Type} `{NT : Num T}.
Notation heap := (@heap T).
Notation M := (@M T).
Notation hval := (@hval T).
Implicit Types h : heap.

(** ** Only results are added to the MultiUnits *)
Definition quiet {A} (m : M A) : Prop := forall h, mobjs (snd (m h)) = mobjs h.
Definition adds (m : M hval) : Prop := forall h,
  match m h with
  | (Ok (HMulti k), h') => k = length (mobjs h) /\ exists r, mobjs h' = mobjs h ++ [r]
  | (_, h') => mobjs h' = mobjs h
  end.
Lemma quiet_bind {A B} (m : M A) (f : A -> M B) : quiet m -> (forall x, quiet (f x)) -> quiet (bindM m f).
Proof. intros q k h. unfold bindM. specialize (q h). destruct (m h) as [[x|e] h']; cbn [snd] in *; [rewrite (k x h')|]; exact q. Qed.
Lemma adds_bind {A} (m : M A) (f : A -> M hval) : quiet m -> (forall x, adds (f x)) -> adds (bindM m f).
Proof.
  intros q k h. unfold bindM. specialize (q h). destruct (m h) as [[x|e] h']; cbn [snd] in *; [|exact q].
  specialize (k x h'). rewrite q in k. exact k.
Qed.
Lemma quiet_ret {A} (x : A) : quiet (ret x). Proof. intro h. reflexivity. Qed.
Lemma quiet_fail {A} e : quiet (fail (A := A) e). Proof. intro h. reflexivity. Qed.
Lemma quiet_lift {A} (r : res A) : quiet (lift r). Proof. intro h. reflexivity. Qed.
Lemma quiet_gc c : quiet (get_cell c). Proof. intro h. reflexivity. Qed.
Lemma quiet_gl c : quiet (get_list c). Proof. intro h. reflexivity. Qed.
Lemma quiet_gu c : quiet (get_unit c). Proof. intro h. reflexivity. Qed.
Lemma quiet_gm c : quiet (get_multi c). Proof. intro h. reflexivity. Qed.
Lemma quiet_sc c x : quiet (set_cell c x). Proof. intro h. reflexivity. Qed.
Lemma quiet_sl c x : quiet (set_list c x). Proof. intro h. reflexivity. Qed.
Lemma quiet_nc x : quiet (new_cell x). Proof. intro h. reflexivity. Qed.
Lemma quiet_nl x : quiet (new_list x). Proof. intro h. reflexivity. Qed.
Lemma quiet_map {A B} (f : A -> M B) l : (forall x, quiet (f x)) -> quiet (mapMM f l).
Proof. intro k. induction l as [|x l IH]; cbn [mapMM]; [apply quiet_ret|]. apply quiet_bind; [apply k|]. intro y. apply quiet_bind; [exact IH|]. intro. apply quiet_ret. Qed.
Lemma quiet_iter {A} (f : A -> M unit) l : (forall x, quiet (f x)) -> quiet (iterM f l).
Proof. intro k. induction l as [|x l IH]; cbn [iterM]; [apply quiet_ret|]. apply quiet_bind; [apply k|]. intro y. exact IH. Qed.
Ltac quiets := repeat first
  [ simple apply quiet_ret | simple apply quiet_fail | simple apply quiet_lift | simple apply quiet_gc | simple apply quiet_gl | simple apply quiet_gu | simple apply quiet_gm
  | simple apply quiet_sc | simple apply quiet_sl | simple apply quiet_nc | simple apply quiet_nl | apply quiet_map; intro; cbv beta | apply quiet_iter; intro; cbv beta
  | assumption | simple apply quiet_bind; [|intro; cbv beta]
  | match goal with |- quiet (match ?x with _ => _ end) => destruct x end
  | match goal with |- quiet (if ?x then _ else _) => destruct x end
  | match goal with |- quiet (let '(_, _) := ?x in _) => destruct x end ].
Lemma quiet_read l : quiet (read_half l). Proof. unfold read_half. quiets. Qed.
Lemma quiet_alloc b : quiet (alloc_half b). Proof. unfold alloc_half. quiets. Qed.
Lemma quiet_copy l : quiet (deepcopy l). Proof. unfold deepcopy. quiets; apply quiet_alloc. Qed.
Lemma quiet_concat a b : quiet (concat a b). Proof. unfold concat. quiets. Qed.
Lemma quiet_prefixes a b : quiet (h_prefixes a b). Proof. unfold h_prefixes. quiets; try apply quiet_read; try apply quiet_alloc. Qed.
Lemma quiet_combine l : quiet (h_combine l). Proof. unfold h_combine, h_combine_step. quiets. Qed.
Lemma quiet_split l : quiet (h_split l). Proof. induction l; cbn [h_split]; quiets. Qed.
Lemma quiet_keep l : quiet (h_keep l). Proof. induction l; cbn [h_keep]; quiets. Qed.
Lemma quiet_cancel a b : quiet (h_cancel a b). Proof. unfold h_cancel, h_absorb. quiets; try apply quiet_split; try apply quiet_keep. Qed.
Lemma quiet_expand fuel : forall pre rest other hit, quiet (h_expand_loop fuel pre rest other hit).
Proof. induction fuel as [|fuel IH]; intros pre [|c rest] other hit; cbn [h_expand_loop]; quiets; apply IH. Qed.
Lemma quiet_round a b : quiet (h_round a b). Proof. unfold h_round. quiets; apply quiet_expand. Qed.
Lemma quiet_dloop fuel one : forall a b, quiet (h_dloop fuel one a b).
Proof. induction fuel as [|fuel IH]; intros a b; cbn [h_dloop]; quiets; try apply quiet_round; apply IH. Qed.
Lemma quiet_decon one a b : quiet (h_deconstruct one a b). Proof. unfold h_deconstruct. quiets; try apply quiet_copy; apply quiet_dloop. Qed.
Lemma quiet_sloop fuel : forall a b, quiet (h_sloop fuel a b).
Proof. induction fuel as [|fuel IH]; intros a b; cbn [h_sloop]; quiets; try apply quiet_read; try apply quiet_cancel; apply IH. Qed.
Lemma quiet_common l : forall a b, quiet (h_common l a b).
Proof. induction l as [|[k v] l IH]; intros a b; cbn [h_common]; quiets; try apply quiet_read; try apply quiet_alloc; apply IH. Qed.
Lemma quiet_tail c d a b : quiet (h_reduce_tail c d a b).
Proof. unfold h_reduce_tail, h_simplify. quiets; try apply quiet_decon; try apply quiet_combine; try apply quiet_cancel; try apply quiet_read; try apply quiet_sloop; apply quiet_common. Qed.
Lemma quiet_reduce c d a b : quiet (h_reduce c d a b). Proof. unfold h_reduce. quiets; try apply quiet_prefixes; apply quiet_tail. Qed.

Lemma adds_multi r : adds (new_multi r). Proof. intro h. split; [reflexivity|exists r; reflexivity]. Qed.
Lemma adds_unit u : adds (new_unit u). Proof. intro h. reflexivity. Qed.
Lemma adds_fail e : adds (fail e). Proof. intro h. reflexivity. Qed.
Lemma adds_num x : adds (ret (HNum x)). Proof. intro h. reflexivity. Qed.
Lemma adds_none : adds (ret HNone). Proof. intro h. reflexivity. Qed.
Lemma adds_units r : adds (h_unit r). Proof. apply adds_bind; [apply quiet_lift|]. intro. apply adds_unit. Qed.
Ltac added := repeat first
  [ simple apply adds_multi | simple apply adds_unit | simple apply adds_fail | simple apply adds_num | simple apply adds_none | simple apply adds_units
  | simple apply adds_bind; [solve [quiets; try apply quiet_read; try apply quiet_alloc; try apply quiet_copy; try apply quiet_concat; try apply quiet_reduce; try apply quiet_tail]|intro; cbv beta]
  | match goal with |- adds (match ?x with _ => _ end) => destruct x end
  | match goal with |- adds (if ?x then _ else _) => destruct x end ].
Lemma adds_op o : adds (on_heap o).
Proof.
  destruct o as [a b|a b|a b|a b|a k|a]; destruct a; cbn [on_heap h_mul h_div h_add h_sub h_pow h_neg];
    unfold h_multi_mul, h_multi_div, h_multi_rdiv, h_multi_rmul, h_multi_add, h_multi_sub, h_multi_neg, h_multi_pow, h_unit_addsub, h_unit_mul, h_unit_div, h_unit_rmul, h_unit_pow, h_unit_neg,
      h_shape_div, h_shape_mul, h_plain, h_same_units, h_scale; added;
    unfold h_multi_mul, h_multi_rdiv, h_shape_div, h_shape_mul, h_plain; added.
Qed.

(** ** Lists in use are shared as a whole *)
Lemma live_range h l : wf h -> live h l -> l < length (lists h).
Proof.
  intros (w1 & w2 & w3) [->|[->|(m & r & e & q)]]; [lia|lia|]. destruct (w2 r (nth_error_In _ _ e)). destruct q as [->| ->]; assumption.
Qed.
Lemma live_app h h' rs l : mobjs h' = mobjs h ++ rs -> live h' l -> live h l \/ exists r, In r rs /\ (l = mrt r \/ l = mrb r).
Proof.
  intros e [->|[->|(m & r & k & q)]]; [left; now left|left; right; now left|].
  rewrite e in k. destruct (Nat.lt_ge_cases m (length (mobjs h))) as [i|i].
  - rewrite nth_error_app1 in k by exact i. left. right. right. exists m, r. auto.
  - rewrite nth_error_app2 in k by exact i. right. exists r. split; [eapply nth_error_In, k|exact q].
Qed.
Lemma whole_step h h' : wf h -> shared_whole h -> keeps (lists h) (lists h') ->
  (forall l, live h' l -> live h l \/ (length (lists h) <= l /\ forall cs, nth_error (lists h') l = Some cs -> Forall (fun c => length (cells h) <= c) cs)) ->
  (forall l l' cs cs' c, live h' l -> live h' l' -> length (lists h) <= l -> length (lists h) <= l' -> l <> l' ->
     nth_error (lists h') l = Some cs -> nth_error (lists h') l' = Some cs' -> In c cs -> ~ In c cs') ->
  shared_whole h'.
Proof.
  intros w s k n d l l' cs cs' c v v' ne e e' i i'.
  assert (old : forall l cs, live h l -> nth_error (lists h') l = Some cs -> nth_error (lists h) l = Some cs /\ forall c, In c cs -> c < length (cells h)).
  { intros l0 cs0 v0 e0. assert (r := live_range h l0 w v0). destruct (nth_error (lists h) l0) as [cs1|] eqn:e1; [|apply nth_error_None in e1; lia].
    rewrite (k _ _ e1) in e0. injection e0 as <-. split; [reflexivity|]. destruct w as (w1 & _). destruct (w1 cs1 (nth_error_In _ _ e1)) as [_ f].
    intros c0 i0. rewrite Forall_forall in f. exact (f c0 i0). }
  destruct (n l v) as [a|[a f]]; destruct (n l' v') as [a'|[a' f']].
  - destruct (old _ _ a e) as [o _]. destruct (old _ _ a' e') as [o' _]. exact (s l l' cs cs' c a a' ne o o' i i').
  - destruct (old _ _ a e) as [_ o]. specialize (f' _ e'). rewrite Forall_forall in f'. specialize (o c i). specialize (f' c i'). lia.
  - destruct (old _ _ a' e') as [_ o]. specialize (f _ e). rewrite Forall_forall in f. specialize (o c i'). specialize (f c i). lia.
  - exact (d l l' cs cs' c v v' a a' ne e e' i i').
Qed.
(** One more MultiUnit, on lists of its own or on those of others. *)
Lemma whole_new h h' r : wf h -> shared_whole h -> keeps (lists h) (lists h') -> mobjs h' = mobjs h ++ [r] ->
  (live h (mrt r) /\ live h (mrb r)) \/ (exists t b, owned h h' (mrt r) (mrb r) t b) -> shared_whole h'.
Proof.
  intros w s k e c. apply (whole_step h h' w s k).
  - intros l v. destruct (live_app _ _ _ _ e v) as [a|(r' & [<-|[]] & q)]; [left; exact a|].
    destruct c as [[c1 c2]|(t & b & ct & cb & [e1 e2 ne ft fb nd fr st sb])]; [left; destruct q as [->| ->]; assumption|].
    right. unfold fresh in fr. rewrite Forall_forall in fr.
    destruct q as [->| ->]; (split; [assumption|]); intros cs x; apply Forall_forall; intros y i; apply fr, in_or_app; [left|right]; congruence.
  - intros l l' cs cs' y v v' g g' ne x x' i i'.
    destruct (live_app _ _ _ _ e v) as [a|(r' & [<-|[]] & q)]; [apply (live_range h l w) in a; lia|].
    destruct (live_app _ _ _ _ e v') as [a|(r' & [<-|[]] & q')]; [apply (live_range h l' w) in a; lia|].
    destruct c as [[c1 c2]|(t & b & ct & cb & [e1 e2 ne' ft fb nd fr st sb])].
    { apply (live_range h _ w) in c1. apply (live_range h _ w) in c2. destruct q; lia. }
    destruct (NoDup_app_elim _ _ nd) as (_ & _ & dis).
    destruct q as [->| ->]; destruct q' as [->| ->]; try congruence.
    + apply (dis y); congruence.
    + apply (dis y); congruence.
Qed.
Lemma whole_same h h' : shared_whole h -> lists h' = lists h -> mobjs h' = mobjs h -> shared_whole h'.
Proof.
  intros s e m l l' cs cs' c v v'. rewrite e. apply s.
  - destruct v as [a|[a|(n & r & k & q)]]; [now left|right; now left|right; right; exists n, r; rewrite <- m; auto].
  - destruct v' as [a|[a|(n & r & k & q)]]; [now left|right; now left|right; right; exists n, r; rewrite <- m; auto].
Qed.
Lemma scaling_lists h m o a k h' : means h (HMulti m) a -> scaling m o -> on_heap o h = (Ok (HMulti k), h') ->
  exists r, mobjs h' = mobjs h ++ [r] /\ live h (mrt r) /\ live h (mrb r).
Proof.
  intros ma sc. inversion ma as [| | | |? r t b er ht hb]; subst.
  assert (lt : live h (mrt r)) by (right; right; exists m, r; auto). assert (lb : live h (mrb r)) by (right; right; exists m, r; auto).
  destruct sc as [x|x|x|x| |n|n]; cbn [on_heap h_mul h_div h_neg h_add h_sub].
  - unfold h_multi_mul, bindM at 1. rewrite (get_multi_ok _ _ _ er). intros [= _ <-]. eexists. split; [reflexivity|auto].
  - unfold h_multi_rmul, bindM at 1. rewrite (get_multi_ok _ _ _ er). intros [= _ <-]. eexists. split; [reflexivity|auto].
  - unfold h_multi_div, bindM at 1. rewrite (get_multi_ok _ _ _ er). unfold bindM, lift.
    destruct (pydiv (mrv r) x); [|discriminate]. intros [= _ <-]. eexists. split; [reflexivity|auto].
  - unfold h_multi_rdiv, bindM at 1. rewrite (get_multi_ok _ _ _ er). unfold bindM, lift.
    destruct (pydiv x (mrv r)); [|discriminate]. intros [= _ <-]. eexists. split; [reflexivity|auto].
  - unfold h_multi_neg, bindM. rewrite (get_multi_ok _ _ _ er). intros [= _ <-]. eexists. split; [reflexivity|auto].
  - unfold h_multi_add, bindM at 1. rewrite (get_multi_ok _ _ _ er). unfold bindM at 1.
    destruct (get_multi n h) as [[r2|] h1] eqn:e2; [|discriminate]. assert (h1 = h) by (unfold get_multi in e2; congruence). subst h1.
    destruct (mcls_eqb (mrc r) (mrc r2)); [|discriminate]. unfold bindM.
    destruct (h_same_units r r2 h) as [[[|]|] h1] eqn:e3; try discriminate.
    assert (q : mobjs h1 = mobjs h). { assert (z : quiet (h_same_units r r2)) by (unfold h_same_units; quiets; apply quiet_read). specialize (z h). rewrite e3 in z. exact z. }
    intros [= _ <-]. eexists. cbn [mobjs]. rewrite q. split; [reflexivity|auto].
  - unfold h_multi_sub, bindM at 1. rewrite (get_multi_ok _ _ _ er). unfold bindM at 1.
    destruct (get_multi n h) as [[r2|] h1] eqn:e2; [|discriminate]. assert (h1 = h) by (unfold get_multi in e2; congruence). subst h1.
    unfold bindM.
    destruct (h_same_units r r2 h) as [[[|]|] h1] eqn:e3; try discriminate.
    assert (q : mobjs h1 = mobjs h). { assert (z : quiet (h_same_units r r2)) by (unfold h_same_units; quiets; apply quiet_read). specialize (z h). rewrite e3 in z. exact z. }
    intros [= _ <-]. eexists. cbn [mobjs]. rewrite q. split; [reflexivity|auto].
Qed.
Lemma live_keeps h h' l : keeps (mobjs h) (mobjs h') -> live h l -> live h' l.
Proof. intros k [->|[->|(m & r & e & q)]]; [now left|right; now left|right; right; exists m, r; auto]. Qed.
Lemma whole_op h o p : wf h -> shared_whole h -> operands h o p -> shared_whole (snd (on_heap o h)).
Proof.
  intros w s k. destruct (arithmetic h o p w k) as [u [w' _]]. assert (a := adds_op o h).
  assert (same : mobjs (snd (on_heap o h)) = mobjs h -> shared_whole (snd (on_heap o h))).
  { intro e. apply (whole_step h _ w s); [apply u| |].
    - intros l v. destruct (live_app h _ [] l ltac:(rewrite app_nil_r; exact e) v) as [x|(r & [] & _)]. left. exact x.
    - intros l l' cs cs' c v v' g g'. destruct (live_app h _ [] l ltac:(rewrite app_nil_r; exact e) v) as [x|(r & [] & _)]. apply (live_range h l w) in x. lia. }
  destruct (on_heap o h) as [[[x| | |n|n]|ex] h'] eqn:eo; cbn [snd] in *; try (apply same; exact a).
  destruct a as [en [r em]]. apply (whole_new h h' r w s); [apply u|exact em|].
  destruct (unless_scaling h w o p k) as [[m sc]|ap].
  - left. assert (mm : exists x, means h (HMulti m) x) by (inversion sc; subst; inversion k; subst; eauto). destruct mm as [x mm].
    destruct (scaling_lists h m o x n h' mm sc eo) as (r' & em' & l1 & l2). rewrite em in em'. apply app_inv_head in em'. injection em' as <-. auto.
  - right. unfold apart in ap. rewrite eo in ap. destruct ap as [_ (r' & t & b & e & ow)]. rewrite em, en, nth_error_app2, Nat.sub_diag in e by lia.
    injection e as <-. eauto.
Qed.
Lemma reachable_whole tb h : reachable tb h -> shared_whole h.
Proof.
  intro r. induction r as [|h u r IH|h c v s r IH|h o p r IH k|h m target ip r IH|h n target ip r IH|h m x r IH|h m r IH];
    try (assert (w := reachable_wf tb h r)).
  - intros l l' cs cs' c [->|[->|(m & r & e & _)]] v' ne e1 e2 i; try (injection e1 as <-; destruct i). destruct m; discriminate e.
  - apply (whole_same h); [exact IH|reflexivity|reflexivity].
  - destruct (construct_cases h c v s w) as [[_ ->]|[(_ & e & _ & ->)|(_ & t & b & l1 & l2 & c1 & c2 & h' & _ & -> & [u w'] & o & em & _)]]; cbn [snd].
    + apply (whole_new h _ (MR c v 0 1) w IH); [apply keeps_refl|reflexivity|]. left. split; [now left|right; now left].
    + exact IH.
    + apply (whole_new h _ (MR c v l1 l2) w IH); [apply u|cbn; rewrite em; reflexivity|]. right. exists t, b, c1, c2.
      destruct o as [e1 e2 ne ft fb nd fr st sb]. constructor; auto.
  - exact (whole_op h o p w IH k).
  - destruct (nth_error (mobjs h) m) as [a|] eqn:e.
    + assert (k := multi_convert_cases tb h m target ip a w e).
      destruct (multi_convert_to tb (den_multi h a) target) as [x|x]; [|rewrite k; exact IH].
      destruct k as (l1 & l2 & c1 & c2 & h' & -> & [u w'] & o & em & _).
      assert (ow : own h (HP (cells h') (lists h') (uobjs h') (mobjs h' ++ [MR (mc x) (mv x) l1 l2])) l1 l2 c1 c2 (mtop x) (mbot x)).
      { destruct o as [e1 e2 ne ft fb nd fr st sb]. constructor; auto. }
      assert (g : shared_whole (HP (cells h') (lists h') (uobjs h') (mobjs h' ++ [MR (mc x) (mv x) l1 l2]))).
      { apply (whole_new h _ (MR (mc x) (mv x) l1 l2) w IH); [apply u|cbn; rewrite em; reflexivity|]. right. exists (mtop x), (mbot x), c1, c2. exact ow. }
      destruct ip; cbn [snd]; [|exact g].
      intros l l' cs cs' y v v'. apply g.
      * destruct v as [q|[q|(n & r0 & k & q)]]; [now left|right; now left|right; right]. cbn [mobjs] in k.
        destruct (Nat.eq_dec n m) as [->|ne].
        -- rewrite sn_eq in k by (rewrite em; apply nth_error_Some; congruence). injection k as <-. exists (length (mobjs h')), (MR (mc x) (mv x) l1 l2). split; [|exact q]. cbn. rewrite nth_error_app2, Nat.sub_diag by lia. reflexivity.
        -- rewrite sn_neq in k by congruence. exists n, r0. split; [|exact q]. cbn. rewrite nth_error_app1; [exact k|]. apply nth_error_Some. congruence.
      * destruct v' as [q|[q|(n & r0 & k & q)]]; [now left|right; now left|right; right]. cbn [mobjs] in k.
        destruct (Nat.eq_dec n m) as [->|ne].
        -- rewrite sn_eq in k by (rewrite em; apply nth_error_Some; congruence). injection k as <-. exists (length (mobjs h')), (MR (mc x) (mv x) l1 l2). split; [|exact q]. cbn. rewrite nth_error_app2, Nat.sub_diag by lia. reflexivity.
        -- rewrite sn_neq in k by congruence. exists n, r0. split; [|exact q]. cbn. rewrite nth_error_app1; [exact k|]. apply nth_error_Some. congruence.
    + unfold h_multi_convert, bindM, get_multi. rewrite e. exact IH.
  - unfold h_unit_convert, bindM at 1, get_unit. destruct (nth_error (uobjs h) n) as [a|]; [|exact IH].
    unfold bindM at 1, lift. destruct (unit_convert_to tb a target) as [x|x]; [|exact IH].
    destruct (same_target a target); [exact IH|]. destruct ip; (apply (whole_same h); [exact IH|reflexivity|reflexivity]).
  - destruct (nth_error (mobjs h) m) as [a|] eqn:e; [|unfold append_top, bindM, get_multi; rewrite e; exact IH].
    destruct (append_eq h m a x w e) as (cs0 & el & ->). cbn [snd]. destruct w as (w1 & w2 & w3).
    intros l l' cs cs' c v v' ne e1 e2 i i'. cbn [lists] in e1, e2.
    assert (lv : forall l, live (HP (cells h ++ [x]) (set_nth (mrt a) (cs0 ++ [length (cells h)]) (lists h)) (uobjs h) (mobjs h)) l -> live h l) by (intros ? q; exact q).
    assert (rg : forall l cs c, nth_error (lists h) l = Some cs -> In c cs -> c < length (cells h)).
    { intros l0 d y k j. destruct (w1 d (nth_error_In _ _ k)) as [_ f]. rewrite Forall_forall in f. exact (f y j). }
    assert (la : mrt a < length (lists h)) by (apply nth_error_Some; congruence).
    destruct (Nat.eq_dec (mrt a) l) as [<-|n1]; destruct (Nat.eq_dec (mrt a) l') as [<-|n2]; [congruence| | |].
    + rewrite sn_eq in e1 by exact la. injection e1 as <-. rewrite sn_neq in e2 by exact n2.
      apply in_app_or in i as [i|[<-|[]]]; [exact (IH _ _ _ _ c (lv _ v) (lv _ v') ne el e2 i i')|]. specialize (rg _ _ _ e2 i'). lia.
    + rewrite sn_eq in e2 by exact la. injection e2 as <-. rewrite sn_neq in e1 by exact n1.
      apply in_app_or in i' as [i'|[<-|[]]]; [exact (IH _ _ _ _ c (lv _ v) (lv _ v') ne e1 el i i')|]. specialize (rg _ _ _ e1 i). lia.
    + rewrite sn_neq in e1 by exact n1. rewrite sn_neq in e2 by exact n2. exact (IH _ _ _ _ c (lv _ v) (lv _ v') ne e1 e2 i i').
  - destruct (nth_error (mobjs h) m) as [a|] eqn:e; [|unfold combine_top, bindM, get_multi; rewrite e; exact IH].
    destruct (combine_eq h m a w e) as (cs & b & h' & _ & -> & (o1 & o2 & o3 & _) & _). cbn [snd]. apply (whole_same h); assumption.
Qed.

(** ** What changes of a half show in *)
Lemma append_shows h m a x : wf h -> nth_error (mobjs h) m = Some a ->
  exists h', append_top m x h = (Ok tt, h') /\ wf h' /\ mobjs h' = mobjs h /\ uobjs h' = uobjs h /\
    forall n r t b, nth_error (mobjs h) n = Some r -> holds h (mrt r) t -> holds h (mrb r) b ->
      means h' (HMulti n) (VMulti (seen_through (mrt a) (fun u => u ++ [x]) r t b)).
Proof.
  intros w e. destruct (append_eq h m a x w e) as (cs & el & eq). eexists. split; [exact eq|].
  assert (w' := append_wf h m x w). rewrite eq in w'. split; [exact w'|]. split; [reflexivity|]. split; [reflexivity|].
  assert (la : mrt a < length (lists h)) by (apply nth_error_Some; congruence).
  assert (g : forall l t, holds h l t -> holds (HP (cells h ++ [x]) (set_nth (mrt a) (cs ++ [length (cells h)]) (lists h)) (uobjs h) (mobjs h)) l (if Nat.eqb l (mrt a) then t ++ [x] else t)).
  { intros l t (cs' & el' & st). destruct (Nat.eqb_spec l (mrt a)) as [->|ne].
    - rewrite el in el'. injection el' as <-. exists (cs ++ [length (cells h)]). split; [cbn; apply sn_eq, la|].
      apply stored_app; [eapply stored_unchanged; [|exact st]; apply keeps_app|]. constructor; [|constructor].
      cbn. rewrite nth_error_app2, Nat.sub_diag by lia. reflexivity.
    - exists cs'. split; [cbn; rewrite sn_neq by congruence; exact el'|]. eapply stored_unchanged; [|exact st]. apply keeps_app. }
  intros n r t b en ht hb. unfold seen_through. apply means_multi; [exact en|apply g, ht|apply g, hb].
Qed.
Lemma combine_shows tb h m a : reachable tb h -> nth_error (mobjs h) m = Some a ->
  exists h', combine_top m h = (Ok tt, h') /\ wf h' /\ mobjs h' = mobjs h /\ uobjs h' = uobjs h /\
    forall n r t b, nth_error (mobjs h) n = Some r -> holds h (mrt r) t -> holds h (mrb r) b ->
      means h' (HMulti n) (VMulti (seen_through (mrt a) combine_units r t b)).
Proof.
  intros rc e. assert (w := reachable_wf tb h rc). assert (sw := reachable_whole tb h rc).
  destruct (combine_eq h m a w e) as (cs & b0 & h' & el & eq & o & st & st'). exists h'. split; [exact eq|].
  split; [exact (only_wf _ _ _ o w)|]. split; [apply o|]. split; [apply o|].
  assert (g : forall l t, live h l -> holds h l t -> holds h' l (if Nat.eqb l (mrt a) then combine_units t else t)).
  { intros l t v (cs' & el' & s). destruct (Nat.eqb_spec l (mrt a)) as [->|ne].
    - rewrite el in el'. injection el' as <-. exists cs. split; [rewrite (proj1 o); exact el|].
      assert (t = b0). { clear -s st. revert b0 st. induction s as [|c x cs b e s IH]; intros b0 st; inversion st; subst; [reflexivity|]. f_equal; [congruence|]. apply IH. assumption. }
      subst t. exact st'.
    - exists cs'. split; [rewrite (proj1 o); exact el'|]. eapply only_stored; [exact o| |exact s].
      intros c i. apply (sw l (mrt a) cs' cs c v); try assumption. right. right. exists m, a. auto. }
  intros n r t b en ht hb. unfold seen_through.
  apply means_multi; [rewrite (proj1 (proj2 (proj2 o))); exact en| |]; apply g; try assumption; right; right; exists n, r; auto.
Qed.
(** Objects with no half in common see nothing. *)
Lemma unseen l f (r : @mrec T) t b : mrt r <> l -> mrb r <> l -> seen_through l f r t b = MO (mrc r) (mrv r) t b.
Proof. intros n1 n2. unfold seen_through. apply Nat.eqb_neq in n1. apply Nat.eqb_neq in n2. rewrite n1, n2. reflexivity. Qed.
End Owner.
