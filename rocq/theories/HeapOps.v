(** * HeapOps: the operators on the heap compute the pure operators *)
From Coq Require Import String Ascii List ZArith QArith Qcanon Bool Lia.
From Verif Require Import Py Num UnitsData UnitsStruct Units Heap HeapSpec HeapFacts HeapPipe.
Import ListNotations.
Local Open Scope string_scope.
Local Open Scope list_scope.
Local Open Scope nat_scope.

Section Ops.
Context {T : Type} `{NT : Num T}.
Notation heap := (@heap T).
Notation M := (@M T).
Implicit Types h : heap.

Definition res_means : pyval T -> hval -> heap -> Prop := fun p v h => means h v p.

Lemma sound_refl h : wf h -> sound h h.
Proof. intro w. split; [apply unchanged_refl|exact w]. Qed.
Lemma holds_range h l b : holds h l b -> l < length (lists h).
Proof. intros (cs & e & _). apply nth_error_Some. congruence. Qed.
Lemma new_multi_ok h0 h c v lt lb t b :
  sound h0 h -> holds h lt t -> holds h lb b ->
  runs h0 (new_multi (MR c v lt lb)) h (Ok (VMulti (MO c v t b))) res_means.
Proof.
  intros s ht hb. eapply runs_last; [reflexivity| |].
  - apply sound_new_multi; [exact s|eapply holds_range, ht|eapply holds_range, hb].
  - apply (means_multi _ _ (MR c v lt lb)); cbn.
    + rewrite nth_error_app2, Nat.sub_diag by lia. reflexivity.
    + exact ht.
    + exact hb.
Qed.
Lemma new_unit_ok h0 h u : sound h0 h -> runs h0 (new_unit u) h (Ok (VUnit u)) res_means.
Proof.
  intro s. eapply runs_last; [reflexivity|apply sound_new_unit, s|].
  constructor. cbn. rewrite nth_error_app2, Nat.sub_diag by lia. reflexivity.
Qed.
Lemma h_unit_ok h0 h r : sound h0 h -> runs h0 (h_unit r) h (vunit r) res_means.
Proof.
  intro s. destruct r as [u|e]; [|exists h; split; [exact s|reflexivity]].
  eapply runs_step; [reflexivity|]. apply new_unit_ok, s.
Qed.
Lemma num_ok h0 h x : sound h0 h -> runs h0 (ret (HNum x)) h (Ok (VNum x)) res_means.
Proof. intro s. apply runs_ret; [exact s|]. constructor. Qed.
Lemma shape_div_ok h0 h v lt lb t b :
  sound h0 h -> holds h lt t -> holds h lb b -> runs h0 (h_shape_div v lt lb) h (Ok (shape_div v t b)) res_means.
Proof.
  intros s ht hb. unfold h_shape_div, shape_div.
  eapply runs_step; [apply read_half_ok, ht|]. eapply runs_step; [apply read_half_ok, hb|].
  destruct t as [|x [|x' t]]; destruct b as [|y [|y' b]];
    try (apply num_ok, s); try (apply new_unit_ok, s); apply new_multi_ok; assumption.
Qed.
Lemma shape_mul_ok h0 h v lt lb t b :
  sound h0 h -> holds h lt t -> holds h lb b -> runs h0 (h_shape_mul v lt lb) h (Ok (shape_mul v t b)) res_means.
Proof.
  intros s ht hb. unfold h_shape_mul, shape_mul.
  eapply runs_step; [apply read_half_ok, ht|]. eapply runs_step; [apply read_half_ok, hb|].
  destruct t as [|x [|x' t]]; destruct b as [|y b];
    try (apply num_ok, s); try (apply new_unit_ok, s); apply new_multi_ok; assumption.
Qed.
Lemma runs_pure {A C D} h0 h (r : res A) (f : A -> M C) (g : A -> res D) Q :
  sound h0 h -> (forall y, runs h0 (f y) h (g y) Q) -> runs h0 (bindM (lift r) f) h (bind r g) Q.
Proof.
  intros s k. destruct r as [y|e]; [eapply runs_step; [reflexivity|apply k]|]. exists h. split; [exact s|reflexivity].
Qed.
Lemma runs_rmap {A C D} h0 h (r : res A) (f : A -> M C) (g : A -> D) Q :
  sound h0 h -> (forall y, runs h0 (f y) h (Ok (g y)) Q) -> runs h0 (bindM (lift r) f) h (rmap g r) Q.
Proof. intros s k. destruct r as [y|e]; [eapply runs_step; [reflexivity|apply k]|]. exists h. split; [exact s|reflexivity]. Qed.
Lemma get_unit_ok h n u : nth_error (uobjs h) n = Some u -> get_unit n h = (Ok u, h).
Proof. intro e. unfold get_unit. rewrite e. reflexivity. Qed.
Lemma get_multi_ok h n u : nth_error (mobjs h) n = Some u -> get_multi n h = (Ok u, h).
Proof. intro e. unfold get_multi. rewrite e. reflexivity. Qed.

(** Copies of two lists, joined. *)
Lemma join_copies h0 h l1 l2 b1 b2 C (f : nat -> M C) D (r : res D) Q :
  sound h0 h -> holds h l1 b1 -> holds h l2 b2 ->
  (forall l h', sound h0 h' -> unchanged h h' -> holds h' l (b1 ++ b2) -> runs h0 (f l) h' r Q) ->
  runs h0 (bindM (deepcopy l1) (fun x => bindM (deepcopy l2) (fun y => bindM (concat x y) f))) h r Q.
Proof.
  intros s k1 k2 k.
  destruct (deepcopy_ok h0 h l1 b1 s k1) as (h1 & x1 & c1 & a1 & s1 & bl1).
  eapply runs_step; [exact a1|].
  assert (u1 : unchanged h h1) by apply bl1.
  destruct (deepcopy_ok h0 h1 l2 b2 s1) as (h2 & x2 & c2 & a2 & s2 & bl2); [eapply holds_unchanged; eassumption|].
  eapply runs_step; [exact a2|].
  destruct (concat_ok h0 h h1 h2 x1 x2 c1 c2 b1 b2 s2 bl1 bl2) as (h3 & l & a3 & s3 & u3 & hl).
  eapply runs_step; [exact a3|]. apply k; auto.
  eapply unchanged_trans; [exact u1|]. eapply unchanged_trans; [apply bl2|exact u3].
Qed.
Lemma join_alloc h0 h l1 b1 b2 C (f : nat -> M C) D (r : res D) Q :
  sound h0 h -> holds h l1 b1 ->
  (forall l h', sound h0 h' -> unchanged h h' -> holds h' l (b1 ++ b2) -> runs h0 (f l) h' r Q) ->
  runs h0 (bindM (deepcopy l1) (fun x => bindM (alloc_half b2) (fun y => bindM (concat x y) f))) h r Q.
Proof.
  intros s k1 k.
  destruct (deepcopy_ok h0 h l1 b1 s k1) as (h1 & x1 & c1 & a1 & s1 & bl1).
  eapply runs_step; [exact a1|].
  assert (u1 : unchanged h h1) by apply bl1.
  destruct (alloc_half_ok h0 h1 b2 s1) as (h2 & x2 & c2 & a2 & s2 & bl2).
  eapply runs_step; [exact a2|].
  destruct (concat_ok h0 h h1 h2 x1 x2 c1 c2 b1 b2 s2 bl1 bl2) as (h3 & l & a3 & s3 & u3 & hl).
  eapply runs_step; [exact a3|]. apply k; auto.
  eapply unchanged_trans; [exact u1|]. eapply unchanged_trans; [apply bl2|exact u3].
Qed.
Lemma one_copy h0 h l b C (f : nat -> M C) D (r : res D) Q :
  sound h0 h -> holds h l b ->
  (forall l h', sound h0 h' -> unchanged h h' -> holds h' l b -> runs h0 (f l) h' r Q) ->
  runs h0 (bindM (deepcopy l) f) h r Q.
Proof.
  intros s k1 k. destruct (deepcopy_ok h0 h l b s k1) as (h1 & x1 & c1 & a1 & s1 & bl1).
  eapply runs_step; [exact a1|]. apply k; [exact s1|apply bl1|eapply block_holds, bl1].
Qed.

Ltac keep := eapply holds_unchanged; [eassumption|].
Ltac done_shape := first [apply shape_div_ok | apply shape_mul_ok | apply new_multi_ok]; try assumption; eapply own_holds; eassumption.

Section Op.
Variable h : heap.
Hypothesis W : wf h.
Let S0 : sound h h := sound_refl h W.

Lemma mul_ok m o a b : nth_error (mobjs h) m = Some a -> forall t bt, holds h (mrt a) t -> holds h (mrb a) bt ->
  means h o b -> runs h (h_multi_mul m o) h (multi_mul (MO (mrc a) (mrv a) t bt) b) res_means.
Proof.
  intros e t bt ht hb mo. unfold h_multi_mul. eapply runs_step; [apply get_multi_ok, e|].
  destruct mo as [x| | |n u eu|n r t2 b2 er ht2 hb2]; cbn [multi_mul mtop mbot mv mc].
  - apply new_multi_ok; assumption.
  - apply runs_ret; [exact S0|constructor].
  - apply runs_ret; [exact S0|constructor].
  - eapply runs_step; [apply get_unit_ok, eu|].
    eapply join_alloc; [exact S0|exact ht|]. intros lt h1 s1 u1 k1.
    eapply one_copy; [exact s1|keep; exact hb|]. intros lb h2 s2 u2 k2.
    eapply runs_bind; [apply h_reduce_ok; [exact s2|keep; exact k1|exact k2]|].
    intros [[t3 b3] f3] [[lt3 lb3] g3] h3 s3 [e3 o3]. cbn [fst snd] in *.
    destruct (own_holds _ _ _ _ _ _ o3). apply shape_mul_ok; assumption.
  - eapply runs_step; [apply get_multi_ok, er|].
    eapply join_copies; [exact S0|exact ht|exact ht2|]. intros lt h1 s1 u1 k1.
    eapply join_copies; [exact s1|keep; exact hb|keep; exact hb2|]. intros lb h2 s2 u2 k2.
    eapply runs_bind; [apply h_reduce_ok; [exact s2|keep; exact k1|exact k2]|].
    intros [[t3 b3] f3] [[lt3 lb3] g3] h3 s3 [e3 o3]. cbn [fst snd] in *. subst g3.
    destruct (own_holds _ _ _ _ _ _ o3). apply new_multi_ok; assumption.
Qed.
Lemma div_ok m o a b : nth_error (mobjs h) m = Some a -> forall t bt, holds h (mrt a) t -> holds h (mrb a) bt ->
  means h o b -> runs h (h_multi_div m o) h (multi_div (MO (mrc a) (mrv a) t bt) b) res_means.
Proof.
  intros e t bt ht hb mo. unfold h_multi_div. eapply runs_step; [apply get_multi_ok, e|].
  destruct mo as [x| | |n u eu|n r t2 b2 er ht2 hb2]; cbn [multi_div mtop mbot mv mc].
  - apply runs_pure; [exact S0|]. intro q. apply new_multi_ok; assumption.
  - apply runs_ret; [exact S0|constructor].
  - apply runs_ret; [exact S0|constructor].
  - eapply runs_step; [apply get_unit_ok, eu|].
    eapply one_copy; [exact S0|exact ht|]. intros lt h1 s1 u1 k1.
    eapply join_alloc; [exact s1|keep; exact hb|]. intros lb h2 s2 u2 k2.
    eapply runs_bind; [apply h_reduce_ok; [exact s2|keep; exact k1|exact k2]|].
    intros [[t3 b3] f3] [[lt3 lb3] g3] h3 s3 [e3 o3]. cbn [fst snd] in *. subst g3.
    apply runs_pure; [exact s3|]. intro q.
    destruct (own_holds _ _ _ _ _ _ o3). apply shape_div_ok; assumption.
  - eapply runs_step; [apply get_multi_ok, er|].
    eapply runs_step; [apply read_half_ok, ht|]. eapply runs_step; [apply read_half_ok, ht2|].
    eapply runs_step; [apply read_half_ok, hb|]. eapply runs_step; [apply read_half_ok, hb2|].
    destruct (half_eqb t t2 && half_eqb bt b2).
    { apply runs_rmap; [exact S0|]. intro q. apply num_ok, S0. }
    eapply join_copies; [exact S0|exact ht|exact hb2|]. intros lt h1 s1 u1 k1.
    eapply join_copies; [exact s1|keep; exact hb|keep; exact ht2|]. intros lb h2 s2 u2 k2.
    eapply runs_bind; [apply h_reduce_ok; [exact s2|keep; exact k1|exact k2]|].
    intros [[t3 b3] f3] [[lt3 lb3] g3] h3 s3 [e3 o3]. cbn [fst snd] in *. subst g3.
    apply runs_pure; [exact s3|]. intro q.
    destruct (own_holds _ _ _ _ _ _ o3). apply shape_div_ok; assumption.
Qed.
(** [xs.append(x)] on a copy. *)
Lemma append_copy h0 h1 l b x C (f : nat -> M C) D (r : res D) Q :
  sound h0 h1 -> holds h1 l b ->
  (forall l' h', sound h0 h' -> unchanged h1 h' -> holds h' l' (b ++ [x]) -> runs h0 (f l') h' r Q) ->
  runs h0 (bindM (deepcopy l) (fun l' => bindM (new_cell x) (fun c => bindM (get_list l') (fun cs => bindM (set_list l' (cs ++ [c])) (fun _ => f l'))))) h1 r Q.
Proof.
  intros s k1 k. destruct (deepcopy_ok h0 h1 l b s k1) as (h2 & l2 & c2 & a2 & s2 & (u & q & e & st & n & rg)).
  eapply runs_step; [exact a2|]. eapply runs_step; [reflexivity|].
  eapply runs_step; [apply get_list_ok; exact e|]. eapply runs_step; [apply set_list_eq|].
  cbn [cells lists uobjs mobjs].
  set (h3 := HP (cells h2 ++ [x]) (lists h2) (uobjs h2) (mobjs h2)).
  assert (s3 : sound h0 h3) by apply sound_new_cells, s2.
  assert (st3 : stored h3 (c2 ++ [length (cells h2)]) (b ++ [x])).
  { apply stored_app; [eapply stored_unchanged; [apply keeps_app|exact st]|]. constructor; [|constructor].
    cbn. rewrite nth_error_app2, Nat.sub_diag by lia. reflexivity. }
  assert (n3 : NoDup (c2 ++ [length (cells h2)])).
  { apply NoDup_app_intro; auto; [repeat constructor; auto|]. intros y i [<-|[]].
    rewrite Forall_forall in rg. apply rg in i. lia. }
  assert (ll := proj2 (unchanged_lengths _ _ (proj1 s))).
  assert (s4 := sound_set_list h0 h3 l2 _ s3 ltac:(lia) n3 (stored_range _ _ _ st3)).
  apply k; [exact s4| |].
  - destruct u as (v1 & v2 & v3 & v4). repeat split; cbn; auto.
    + eapply keeps_trans; [exact v1|apply keeps_app].
    + apply keeps_set; [exact v2|lia].
  - eexists. split; [cbn; apply sn_eq, nth_error_Some; congruence|exact st3].
Qed.
Lemma rdiv_ok m o a b : nth_error (mobjs h) m = Some a -> forall t bt, holds h (mrt a) t -> holds h (mrb a) bt ->
  means h o b -> runs h (h_multi_rdiv m o) h (multi_rdiv (MO (mrc a) (mrv a) t bt) b) res_means.
Proof.
  intros e t bt ht hb mo. unfold h_multi_rdiv. eapply runs_step; [apply get_multi_ok, e|].
  destruct mo as [x| | |n u eu|n r t2 b2 er ht2 hb2]; cbn [multi_rdiv mtop mbot mv mc]; try (apply runs_fail, S0).
  - apply runs_pure; [exact S0|]. intro q. apply new_multi_ok; assumption.
  - eapply runs_step; [apply get_unit_ok, eu|].
    eapply one_copy; [exact S0|exact ht|]. intros lt h1 s1 u1 k1.
    eapply append_copy; [exact s1|keep; exact hb|]. intros lb h2 s2 u2 k2.
    eapply runs_bind; [apply h_reduce_ok; [exact s2|exact k2|keep; exact k1]|].
    intros [[t3 b3] f3] [[lt3 lb3] g3] h3 s3 [e3 o3]. cbn [fst snd] in *. subst g3.
    apply runs_pure; [exact s3|]. intro q.
    destruct (own_holds _ _ _ _ _ _ o3). apply shape_div_ok; assumption.
Qed.
Lemma rmul_ok m o a b : nth_error (mobjs h) m = Some a -> forall t bt, holds h (mrt a) t -> holds h (mrb a) bt ->
  means h o b -> runs h (h_multi_rmul m o) h (multi_rmul (MO (mrc a) (mrv a) t bt) b) res_means.
Proof.
  intros e t bt ht hb mo. unfold h_multi_rmul. eapply runs_step; [apply get_multi_ok, e|].
  destruct mo as [x| | |n u eu|n r t2 b2 er ht2 hb2]; cbn [multi_rmul mtop mbot mv mc]; try (apply runs_fail, S0).
  - apply new_multi_ok; assumption.
  - eapply runs_step; [apply get_unit_ok, eu|].
    eapply join_alloc; [exact S0|exact ht|]. intros lt h1 s1 u1 k1.
    eapply one_copy; [exact s1|keep; exact hb|]. intros lb h2 s2 u2 k2.
    eapply runs_bind; [apply h_reduce_ok; [exact s2|keep; exact k1|exact k2]|].
    intros [[t3 b3] f3] [[lt3 lb3] g3] h3 s3 [e3 o3]. cbn [fst snd] in *.
    destruct (own_holds _ _ _ _ _ _ o3). apply shape_mul_ok; assumption.
Qed.
(** Lines 1173-1176 on a list of BaseUnits made after [h0]. *)
Lemma scale_cells k cs : forall h1 b, NoDup cs -> stored h1 cs b ->
  exists h', iterM (fun c => bindM (get_cell c) (fun u => set_cell c (BU (bname u) (emul (bexp u) k)))) cs h1 = (Ok tt, h')
    /\ only h1 h' cs /\ stored h' cs (scale_half k b).
Proof.
  induction cs as [|c cs IH]; intros h1 b n st; inversion st as [|? u ? bs e st']; subst.
  - exists h1. split; [reflexivity|]. split; [apply only_refl|constructor].
  - inversion n as [|? ? ni n']; subst. set (v := BU (bname u) (emul (bexp u) k)).
    set (h2 := HP (set_nth c v (cells h1)) (lists h1) (uobjs h1) (mobjs h1)).
    assert (o2 : only h1 h2 [c]) by (apply only_set; now left).
    assert (st2 : stored h2 cs bs).
    { eapply only_stored; [exact o2| |exact st']. intros y i [<-|[]]. auto. }
    destruct (IH h2 bs n' st2) as (h3 & r & o & st3). exists h3. split; [|split].
    + cbn [iterM]. unfold bindM at 1. unfold bindM at 1. rewrite (get_cell_ok _ _ _ e). exact r.
    + eapply only_trans; [eapply only_mono; [exact o2|]|eapply only_mono; [exact o|]].
      * intros y [<-|[]]. now left.
      * intros y i. now right.
    + constructor; [|exact st3]. destruct o as (_ & _ & _ & _ & p). rewrite p by exact ni. cbn. apply sn_eq.
      apply nth_error_Some. congruence.
Qed.
Lemma pow_ok m a k : nth_error (mobjs h) m = Some a -> forall t bt, holds h (mrt a) t -> holds h (mrb a) bt ->
  runs h (h_multi_pow m k) h (multi_pow (MO (mrc a) (mrv a) t bt) k) res_means.
Proof.
  intros e t bt ht hb. unfold h_multi_pow. eapply runs_step; [apply get_multi_ok, e|].
  destruct (deepcopy_ok h h (mrt a) t S0 ht) as (h1 & l1 & c1 & a1 & s1 & k1).
  eapply runs_step; [exact a1|].
  destruct (deepcopy_ok h h1 (mrb a) bt s1) as (h2 & l2 & c2 & a2 & s2 & k2); [eapply holds_unchanged; [apply k1|exact hb]|].
  eapply runs_step; [exact a2|].
  destruct (two_blocks h h h1 h2 l1 l2 c1 c2 t bt S0 k1 k2) as [e1 e2 ne ft fb nd fr st sb].
  destruct (NoDup_app_elim _ _ nd) as (nt & nb & dis).
  destruct (scale_cells k c1 h2 t nt st) as (h3 & r3 & o3 & st3).
  eapply runs_step; [unfold h_scale, bindM at 1; rewrite (get_list_ok _ _ _ e1); exact r3|].
  assert (s3 : sound h h3).
  { eapply only_sound; [exact s2| |exact o3]. eapply fresh_incl; [|exact fr]. intros y i. apply in_or_app. now left. }
  assert (sb3 : stored h3 c2 bt) by (eapply only_stored; [exact o3| |exact sb]; intros y i j; exact (dis y j i)).
  destruct (scale_cells k c2 h3 bt nb sb3) as (h4 & r4 & o4 & sb4).
  assert (e2' : nth_error (lists h3) l2 = Some c2) by (rewrite (proj1 o3); exact e2).
  eapply runs_step; [unfold h_scale, bindM at 1; rewrite (get_list_ok _ _ _ e2'); exact r4|].
  assert (s4 : sound h h4).
  { eapply only_sound; [exact s3| |exact o4]. eapply fresh_incl; [|exact fr]. intros y i. apply in_or_app. now right. }
  assert (st4 : stored h4 c1 (scale_half k t)) by (eapply only_stored; [exact o4| |exact st3]; exact dis).
  eapply runs_bind.
  { apply h_reduce_tail_ok; [exact s4| |].
    - exists c1. split; [rewrite (proj1 o4), (proj1 o3); exact e1|exact st4].
    - exists c2. split; [rewrite (proj1 o4); exact e2'|exact sb4]. }
  intros [t5 b5] [lt5 lb5] h5 s5 o5. cbn [fst snd mv] in *.
  apply runs_pure; [exact s5|]. intro v. destruct (own_holds _ _ _ _ _ _ o5). apply new_multi_ok; assumption.
Qed.
Lemma same_ok a b ta ba tb bb C (f : bool -> M C) D (r : res D) Q :
  holds h (mrt a) ta -> holds h (mrb a) ba -> holds h (mrt b) tb -> holds h (mrb b) bb ->
  runs h (f (half_eqb ta tb && half_eqb ba bb)) h r Q -> runs h (bindM (h_same_units a b) f) h r Q.
Proof.
  intros h1 h2 h3 h4 k. eapply runs_step; [|exact k].
  unfold h_same_units, bindM. rewrite (read_half_ok _ _ _ h1), (read_half_ok _ _ _ h3), (read_half_ok _ _ _ h2), (read_half_ok _ _ _ h4).
  reflexivity.
Qed.
Lemma add_ok m o a b : nth_error (mobjs h) m = Some a -> forall t bt, holds h (mrt a) t -> holds h (mrb a) bt ->
  means h o b -> runs h (h_multi_add m o) h (multi_add (MO (mrc a) (mrv a) t bt) b) res_means.
Proof.
  intros e t bt ht hb mo. unfold h_multi_add. eapply runs_step; [apply get_multi_ok, e|].
  destruct mo as [x| | |n u eu|n r t2 b2 er ht2 hb2]; cbn [multi_add mtop mbot mv mc]; try (apply runs_fail, S0).
  eapply runs_step; [apply get_multi_ok, er|].
  destruct (mcls_eqb (mrc a) (mrc r)); [|apply runs_fail, S0].
  eapply same_ok; [exact ht|exact hb|exact ht2|exact hb2|].
  destruct (half_eqb t t2 && half_eqb bt b2); [apply new_multi_ok; assumption|apply runs_fail, S0].
Qed.
Lemma sub_ok m o a b : nth_error (mobjs h) m = Some a -> forall t bt, holds h (mrt a) t -> holds h (mrb a) bt ->
  means h o b -> runs h (h_multi_sub m o) h (multi_sub (MO (mrc a) (mrv a) t bt) b) res_means.
Proof.
  intros e t bt ht hb mo. unfold h_multi_sub. eapply runs_step; [apply get_multi_ok, e|].
  destruct mo as [x| | |n u eu|n r t2 b2 er ht2 hb2]; cbn [multi_sub mtop mbot mv mc]; try (apply runs_fail, S0).
  eapply runs_step; [apply get_multi_ok, er|].
  eapply same_ok; [exact ht|exact hb|exact ht2|exact hb2|].
  destruct (half_eqb t t2 && half_eqb bt b2); [apply new_multi_ok; assumption|apply runs_fail, S0].
Qed.
Lemma unit_addsub_ok op n o u b : nth_error (uobjs h) n = Some u -> means h o b ->
  runs h (h_unit_addsub op n o) h (unit_addsub op u b) res_means.
Proof.
  intros e mo. unfold h_unit_addsub. eapply runs_step; [apply get_unit_ok, e|].
  destruct mo as [x| | |k w ew|k r t2 b2 er ht2 hb2]; cbn [unit_addsub]; try (apply runs_fail, S0).
  - apply h_unit_ok, S0.
  - eapply runs_step; [apply get_unit_ok, ew|]. destruct (ucls_sub (uc w) (uc u)); [|apply runs_fail, S0].
    destruct (String.eqb (un u) (un w) && eeqb (ue u) (ue w)); [apply h_unit_ok, S0|apply runs_fail, S0].
Qed.
(** Two new lists. *)
Lemma two_lists h0 h1 q1 q2 C (f : nat -> nat -> M C) D (r : res D) Q :
  sound h0 h1 ->
  (forall l1 l2 h', sound h0 h' -> holds h' l1 q1 -> holds h' l2 q2 -> runs h0 (f l1 l2) h' r Q) ->
  runs h0 (bindM (alloc_half q1) (fun l1 => bindM (alloc_half q2) (f l1))) h1 r Q.
Proof.
  intros s k. destruct (alloc_half_ok h0 h1 q1 s) as (h2 & l2 & c2 & a2 & s2 & k2).
  eapply runs_step; [exact a2|]. destruct (alloc_half_ok h0 h2 q2 s2) as (h3 & l3 & c3 & a3 & s3 & k3).
  eapply runs_step; [exact a3|]. apply k; [exact s3| |eapply block_holds, k3].
  eapply holds_unchanged; [apply k3|]. eapply block_holds, k2.
Qed.
Lemma unit_mul_ok n o u b : nth_error (uobjs h) n = Some u -> means h o b ->
  runs h (h_unit_mul n o) h (unit_mul u b) res_means.
Proof.
  intros e mo. unfold h_unit_mul. eapply runs_step; [apply get_unit_ok, e|].
  destruct mo as [x| | |k w ew|k r t2 b2 er ht2 hb2]; cbn [unit_mul]; try (apply runs_fail, S0).
  - apply h_unit_ok, S0.
  - eapply runs_step; [apply get_unit_ok, ew|].
    destruct (ucls_eqb (uc u) (uc w) && String.eqb (un u) (un w)); [apply h_unit_ok, S0|].
    eapply two_lists; [exact S0|]. intros l1 l2 h1 s1 k1 k2. apply new_multi_ok; assumption.
  - apply mul_ok; auto. constructor. exact e.
Qed.
Lemma unit_rmul_ok n o u b : nth_error (uobjs h) n = Some u -> means h o b ->
  runs h (h_unit_rmul n o) h (unit_rmul u b) res_means.
Proof.
  intros e mo. unfold h_unit_rmul. eapply runs_step; [apply get_unit_ok, e|].
  destruct mo as [x| | |k w ew|k r t2 b2 er ht2 hb2]; cbn [unit_rmul]; try (apply runs_fail, S0).
  apply h_unit_ok, S0.
Qed.
Lemma unit_div_ok n o u b : nth_error (uobjs h) n = Some u -> means h o b ->
  runs h (h_unit_div n o) h (unit_div u b) res_means.
Proof.
  intros e mo. unfold h_unit_div. eapply runs_step; [apply get_unit_ok, e|].
  destruct mo as [x| | |k w ew|k r t2 b2 er ht2 hb2]; cbn [unit_div]; try (apply runs_fail, S0).
  - apply runs_pure; [exact S0|]. intro q. apply h_unit_ok, S0.
  - eapply runs_step; [apply get_unit_ok, ew|]. apply runs_pure; [exact S0|]. intro q.
    destruct (String.eqb (un u) (un w)).
    + destruct (e_is (esub (ue u) (ue w)) 0); [apply num_ok, S0|apply h_unit_ok, S0].
    + eapply two_lists; [exact S0|]. intros l1 l2 h1 s1 k1 k2. apply new_multi_ok; assumption.
  - apply rdiv_ok; auto. constructor. exact e.
Qed.

(** ** All operators *)
Lemma h_mul_ok a b p q : means h a p -> means h b q -> runs h (h_mul a b) h (py_mul p q) res_means.
Proof.
  intros ma mb. destruct ma as [x| | |n u e|n r t bt e ht hb]; cbn [h_mul py_mul].
  - destruct mb as [y| | |k w ew|k r t2 b2 er ht2 hb2]; try (apply runs_fail, S0).
    + apply num_ok, S0.
    + apply unit_rmul_ok; [exact ew|constructor].
    + apply rmul_ok; auto. constructor.
  - destruct mb as [y| | |k w ew|k r t2 b2 er ht2 hb2]; try (apply runs_fail, S0).
    + apply unit_rmul_ok; [exact ew|constructor].
    + apply rmul_ok; auto. constructor.
  - destruct mb as [y| | |k w ew|k r t2 b2 er ht2 hb2]; try (apply runs_fail, S0).
    + apply unit_rmul_ok; [exact ew|constructor].
    + apply rmul_ok; auto. constructor.
  - apply unit_mul_ok; assumption.
  - apply mul_ok; assumption.
Qed.
Lemma h_div_ok a b p q : means h a p -> means h b q -> runs h (h_div a b) h (py_div p q) res_means.
Proof.
  intros ma mb. destruct ma as [x| | |n u e|n r t bt e ht hb]; cbn [h_div py_div].
  - destruct mb as [y| | |k w ew|k r t2 b2 er ht2 hb2]; try (apply runs_fail, S0).
    + apply runs_rmap; [exact S0|]. intro z. apply num_ok, S0.
    + apply rdiv_ok; auto. constructor.
  - destruct mb as [y| | |k w ew|k r t2 b2 er ht2 hb2]; try (apply runs_fail, S0). apply rdiv_ok; auto. constructor.
  - destruct mb as [y| | |k w ew|k r t2 b2 er ht2 hb2]; try (apply runs_fail, S0). apply rdiv_ok; auto. constructor.
  - apply unit_div_ok; assumption.
  - apply div_ok; assumption.
Qed.
Lemma h_add_ok a b p q : means h a p -> means h b q -> runs h (h_add a b) h (py_add p q) res_means.
Proof.
  intros ma mb. destruct ma as [x| | |n u e|n r t bt e ht hb]; cbn [h_add py_add]; try (apply runs_fail, S0).
  - destruct mb as [y| | |k w ew|k r t2 b2 er ht2 hb2]; try (apply runs_fail, S0). apply num_ok, S0.
  - apply unit_addsub_ok; assumption.
  - apply add_ok; assumption.
Qed.
Lemma h_sub_ok a b p q : means h a p -> means h b q -> runs h (h_sub a b) h (py_sub p q) res_means.
Proof.
  intros ma mb. destruct ma as [x| | |n u e|n r t bt e ht hb]; cbn [h_sub py_sub]; try (apply runs_fail, S0).
  - destruct mb as [y| | |k w ew|k r t2 b2 er ht2 hb2]; try (apply runs_fail, S0). apply num_ok, S0.
  - apply unit_addsub_ok; assumption.
  - apply sub_ok; assumption.
Qed.
Lemma h_pow_ok a k p : means h a p -> runs h (h_pow a k) h (py_pow p k) res_means.
Proof.
  intros ma. destruct ma as [x| | |n u e|n r t bt e ht hb]; cbn [h_pow py_pow]; try (apply runs_fail, S0).
  - apply runs_rmap; [exact S0|]. intro z. apply num_ok, S0.
  - unfold h_unit_pow, unit_pow. eapply runs_step; [apply get_unit_ok, e|]. apply runs_pure; [exact S0|].
    intro v. apply h_unit_ok, S0.
  - apply pow_ok; assumption.
Qed.
Lemma h_neg_ok a p : means h a p -> runs h (h_neg a) h (py_neg p) res_means.
Proof.
  intros ma. destruct ma as [x| | |n u e|n r t bt e ht hb]; cbn [h_neg py_neg]; try (apply runs_fail, S0).
  - apply num_ok, S0.
  - unfold h_unit_neg, unit_neg. eapply runs_step; [apply get_unit_ok, e|]. apply h_unit_ok, S0.
  - unfold h_multi_neg, multi_neg. eapply runs_step; [apply get_multi_ok, e|]. apply new_multi_ok; assumption.
Qed.
End Op.
End Ops.
