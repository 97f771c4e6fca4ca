(** * HeapShare: which results of arithmetic share storage with older objects *)
From Coq Require Import String Ascii List ZArith QArith Qcanon Bool Lia.
From Verif Require Import Py Num UnitsData UnitsStruct Units Heap HeapSpec HeapFacts HeapPipe HeapOps HeapProps.
Import ListNotations.
Local Open Scope string_scope.
Local Open Scope list_scope.
Local Open Scope nat_scope.

Section Share.
Context {T : Type} `{NT : Num T}.
Notation heap := (@heap T).
Notation M := (@M T).
Variable h : heap.
Hypothesis W : wf h.
Let S0 : sound h h := sound_refl h W.

Ltac keep := eapply holds_unchanged; [eassumption|].

Lemma unit_fresh (h0 h1 : heap) r : sound h0 h1 -> runs h0 (h_unit r) h1 (vunit r) (fresh_result h0).
Proof.
  intro s. destruct r as [u|e]; [|exists h1; split; [exact s|reflexivity]].
  eapply runs_step; [reflexivity|]. apply fresh_unit, s.
Qed.
Lemma shape_mul_fresh (h0 h1 : heap) v lt lb t b : sound h0 h1 -> owned h0 h1 lt lb t b ->
  runs h0 (h_shape_mul v lt lb) h1 (Ok (shape_mul v t b)) (fresh_result h0).
Proof.
  intros s o. destruct (own_holds _ _ _ _ _ _ o) as [ht hb]. unfold h_shape_mul, shape_mul.
  eapply runs_step; [apply read_half_ok, ht|]. eapply runs_step; [apply read_half_ok, hb|].
  destruct t as [|x [|x' t]]; destruct b as [|y b];
    try (apply fresh_num, s); try (apply fresh_unit, s); apply new_multi_fresh; assumption.
Qed.
Lemma two_lists_fresh (h1 : heap) q1 q2 C (f : nat -> nat -> M C) D (r : res D) Q :
  wf h1 ->
  (forall l1 l2 h', sound h1 h' -> owned h1 h' l1 l2 q1 q2 -> runs h1 (f l1 l2) h' r Q) ->
  runs h1 (bindM (alloc_half q1) (fun l1 => bindM (alloc_half q2) (f l1))) h1 r Q.
Proof.
  intros w k. destruct (alloc_both h1 q1 q2 C f w) as (l1 & l2 & c1 & c2 & h' & e & s & o & _ & _).
  destruct (k l1 l2 h' s (ex_intro _ c1 (ex_intro _ c2 o))) as (h2 & s2 & p).
  exists h2. split; [exact s2|]. rewrite e. exact p.
Qed.

(** MultiUnit with MultiUnit or Unit. *)
Lemma mul_unit_fresh m a t bt n u : nth_error (mobjs h) m = Some a -> holds h (mrt a) t -> holds h (mrb a) bt ->
  nth_error (uobjs h) n = Some u ->
  runs h (h_multi_mul m (HUnit n)) h (multi_mul (MO (mrc a) (mrv a) t bt) (VUnit u)) (fresh_result h).
Proof.
  intros e ht hb eu. unfold h_multi_mul. eapply runs_step; [apply get_multi_ok, e|]. cbn [multi_mul mtop mbot mv mc].
  eapply runs_step; [apply get_unit_ok, eu|].
  eapply join_alloc; [exact S0|exact ht|]. intros lt h1 s1 u1 k1.
  eapply one_copy; [exact s1|keep; exact hb|]. intros lb h2 s2 u2 k2.
  eapply runs_bind; [apply h_reduce_ok; [exact s2|keep; exact k1|exact k2]|].
  intros [[t3 b3] f3] [[lt3 lb3] g3] h3 s3 [e3 o3]. cbn [fst snd] in *.
  apply shape_mul_fresh; assumption.
Qed.
Lemma div_unit_fresh m a t bt n u : nth_error (mobjs h) m = Some a -> holds h (mrt a) t -> holds h (mrb a) bt ->
  nth_error (uobjs h) n = Some u ->
  runs h (h_multi_div m (HUnit n)) h (multi_div (MO (mrc a) (mrv a) t bt) (VUnit u)) (fresh_result h).
Proof.
  intros e ht hb eu. unfold h_multi_div. eapply runs_step; [apply get_multi_ok, e|]. cbn [multi_div mtop mbot mv mc].
  eapply runs_step; [apply get_unit_ok, eu|].
  eapply one_copy; [exact S0|exact ht|]. intros lt h1 s1 u1 k1.
  eapply join_alloc; [exact s1|keep; exact hb|]. intros lb h2 s2 u2 k2.
  eapply runs_bind; [apply h_reduce_ok; [exact s2|keep; exact k1|exact k2]|].
  intros [[t3 b3] f3] [[lt3 lb3] g3] h3 s3 [e3 o3]. cbn [fst snd] in *. subst g3.
  apply runs_pure; [exact s3|]. intro q. apply shape_div_fresh; assumption.
Qed.
Lemma rdiv_unit_fresh m a t bt n u : nth_error (mobjs h) m = Some a -> holds h (mrt a) t -> holds h (mrb a) bt ->
  nth_error (uobjs h) n = Some u ->
  runs h (h_multi_rdiv m (HUnit n)) h (multi_rdiv (MO (mrc a) (mrv a) t bt) (VUnit u)) (fresh_result h).
Proof.
  intros e ht hb eu. unfold h_multi_rdiv. eapply runs_step; [apply get_multi_ok, e|]. cbn [multi_rdiv mtop mbot mv mc].
  eapply runs_step; [apply get_unit_ok, eu|].
  eapply one_copy; [exact S0|exact ht|]. intros lt h1 s1 u1 k1.
  eapply append_copy; [exact s1|keep; exact hb|]. intros lb h2 s2 u2 k2.
  eapply runs_bind; [apply h_reduce_ok; [exact s2|exact k2|keep; exact k1]|].
  intros [[t3 b3] f3] [[lt3 lb3] g3] h3 s3 [e3 o3]. cbn [fst snd] in *. subst g3.
  apply runs_pure; [exact s3|]. intro q. apply shape_div_fresh; assumption.
Qed.
Lemma pow_fresh m a k t bt : nth_error (mobjs h) m = Some a -> holds h (mrt a) t -> holds h (mrb a) bt ->
  runs h (h_multi_pow m k) h (multi_pow (MO (mrc a) (mrv a) t bt) k) (fresh_result h).
Proof.
  intros e ht hb. unfold h_multi_pow. eapply runs_step; [apply get_multi_ok, e|].
  destruct (deepcopy_ok h h (mrt a) t S0 ht) as (h1 & l1 & c1 & a1 & s1 & k1).
  eapply runs_step; [exact a1|].
  destruct (deepcopy_ok h h1 (mrb a) bt s1) as (h2 & l2 & c2 & a2 & s2 & k2); [eapply holds_unchanged; [apply k1|exact hb]|].
  eapply runs_step; [exact a2|].
  destruct (two_blocks h h h1 h2 l1 l2 c1 c2 t bt S0 k1 k2) as [e1 e2 ne ft fb nd fr st sb].
  destruct (NoDup_app_elim _ _ nd) as (nt & nb & dis).
  destruct (scale_cells k c1 h2 t nt st) as (h3 & r3 & o3 & st3).
  eapply runs_step; [unfold h_scale, bindM at 1; rewrite (get_list_ok _ _ _ e1); exact r3|].
  assert (s3 : sound h h3).
  { eapply only_sound; [exact s2| |exact o3]. eapply fresh_incl; [|exact fr]. intros y i. apply in_or_app. now left. }
  assert (sb3 : stored h3 c2 bt) by (eapply only_stored; [exact o3| |exact sb]; intros y i j; exact (dis y j i)).
  destruct (scale_cells k c2 h3 bt nb sb3) as (h4 & r4 & o4 & sb4).
  assert (e2' : nth_error (lists h3) l2 = Some c2) by (rewrite (proj1 o3); exact e2).
  eapply runs_step; [unfold h_scale, bindM at 1; rewrite (get_list_ok _ _ _ e2'); exact r4|].
  assert (s4 : sound h h4).
  { eapply only_sound; [exact s3| |exact o4]. eapply fresh_incl; [|exact fr]. intros y i. apply in_or_app. now right. }
  assert (st4 : stored h4 c1 (scale_half k t)) by (eapply only_stored; [exact o4| |exact st3]; exact dis).
  eapply runs_bind.
  { apply h_reduce_tail_ok; [exact s4| |].
    - exists c1. split; [rewrite (proj1 o4), (proj1 o3); exact e1|exact st4].
    - exists c2. split; [rewrite (proj1 o4); exact e2'|exact sb4]. }
  intros [t5 b5] [lt5 lb5] h5 s5 o5. cbn [fst snd mv] in *.
  apply runs_pure; [exact s5|]. intro v. apply new_multi_fresh; assumption.
Qed.

(** Every operation but those of [scaling] makes storage of its own. *)
Definition fresh_op (o : operation hval) : Prop := exists r, runs h (on_heap o) h r (fresh_result h).
Lemma none_fresh (e : exn) : runs h (fail e) h (Raise e) (fresh_result h).
Proof. exists h. split; [exact S0|reflexivity]. Qed.
Lemma unit_mul_fresh n u b q : nth_error (uobjs h) n = Some u -> means h b q -> fresh_op (Mul (HUnit n) b).
Proof.
  intros e mb. exists (unit_mul u q). cbn [on_heap h_mul]. unfold h_unit_mul. eapply runs_step; [apply get_unit_ok, e|].
  destruct mb as [x| | |k w ew|k r t2 b2 er ht2 hb2]; cbn [unit_mul]; try (apply none_fresh).
  - apply unit_fresh, S0.
  - eapply runs_step; [apply get_unit_ok, ew|].
    destruct (ucls_eqb (uc u) (uc w) && String.eqb (un u) (un w)); [apply unit_fresh, S0|].
    apply two_lists_fresh; [exact W|]. intros l1 l2 h1 s1 o1. apply new_multi_fresh; assumption.
  - apply mul_unit_fresh; assumption.
Qed.
Lemma unit_div_fresh n u b q : nth_error (uobjs h) n = Some u -> means h b q -> fresh_op (Div (HUnit n) b).
Proof.
  intros e mb. exists (unit_div u q). cbn [on_heap h_div]. unfold h_unit_div. eapply runs_step; [apply get_unit_ok, e|].
  destruct mb as [x| | |k w ew|k r t2 b2 er ht2 hb2]; cbn [unit_div]; try (apply none_fresh).
  - apply runs_pure; [exact S0|]. intro z. apply unit_fresh, S0.
  - eapply runs_step; [apply get_unit_ok, ew|]. apply runs_pure; [exact S0|]. intro z.
    destruct (String.eqb (un u) (un w)).
    + destruct (e_is (esub (ue u) (ue w)) 0); [apply fresh_num, S0|apply unit_fresh, S0].
    + apply two_lists_fresh; [exact W|]. intros l1 l2 h1 s1 o1. apply new_multi_fresh; assumption.
  - apply rdiv_unit_fresh; assumption.
Qed.
Lemma unit_addsub_fresh op n u b q : nth_error (uobjs h) n = Some u -> means h b q ->
  runs h (h_unit_addsub op n b) h (unit_addsub op u q) (fresh_result h).
Proof.
  intros e mo. unfold h_unit_addsub. eapply runs_step; [apply get_unit_ok, e|].
  destruct mo as [x| | |k w ew|k r t2 b2 er ht2 hb2]; cbn [unit_addsub]; try (apply none_fresh).
  - apply unit_fresh, S0.
  - eapply runs_step; [apply get_unit_ok, ew|]. destruct (ucls_sub (uc w) (uc u)); [|apply none_fresh].
    destruct (String.eqb (un u) (un w) && eeqb (ue u) (ue w)); [apply unit_fresh, S0|apply none_fresh].
Qed.
Lemma unit_rmul_fresh n u b q : nth_error (uobjs h) n = Some u -> means h b q ->
  runs h (h_unit_rmul n b) h (unit_rmul u q) (fresh_result h).
Proof.
  intros e mo. unfold h_unit_rmul. eapply runs_step; [apply get_unit_ok, e|].
  destruct mo as [x| | |k w ew|k r t2 b2 er ht2 hb2]; cbn [unit_rmul]; try (apply none_fresh).
  apply unit_fresh, S0.
Qed.
Definition apart (o : operation hval) : Prop :=
  match on_heap o h with (Ok (HMulti k), h') => separate h h' k | _ => True end.
Lemma fresh_apart o : fresh_op o -> apart o.
Proof. intros [r k]. exact (runs_fresh h (on_heap o) r W k). Qed.
Ltac raises e := unfold apart; cbn [on_heap h_mul h_div h_add h_sub]; unfold h_multi_mul, h_multi_div, h_multi_rdiv, h_multi_rmul, h_multi_add, h_multi_sub, bindM at 1;
  rewrite (get_multi_ok _ _ _ e); exact I.
Lemma unless_scaling o p : operands h o p -> (exists m, scaling m o) \/ apart o.
Proof.
  intro k. destruct k as [a b p q ma mb|a b p q ma mb|a b p q ma mb|a b p q ma mb|a k p ma|a p ma].
  - destruct ma as [x| | |n u e|n r t bt e ht hb].
    + destruct mb as [y| | |k w ew|k r t2 b2 er ht2 hb2]; try (right; apply I).
      * right. apply fresh_apart. eexists. apply unit_rmul_fresh; [exact ew|constructor].
      * left. exists k. constructor.
    + destruct mb as [y| | |k w ew|k r t2 b2 er ht2 hb2]; try (right; apply I).
      * right. apply fresh_apart. eexists. apply unit_rmul_fresh; [exact ew|constructor].
      * right. raises er.
    + destruct mb as [y| | |k w ew|k r t2 b2 er ht2 hb2]; try (right; apply I).
      * right. apply fresh_apart. eexists. apply unit_rmul_fresh; [exact ew|constructor].
      * right. raises er.
    + right. apply fresh_apart. eapply unit_mul_fresh; eassumption.
    + destruct mb as [y| | |k w ew|k r2 t2 b2 er ht2 hb2].
      * left. exists n. constructor.
      * right. raises e.
      * right. raises e.
      * right. apply fresh_apart. eexists. eapply mul_unit_fresh; eassumption.
      * right. exact (reduced_independent h n k _ _ W (means_multi h n r t bt e ht hb) (means_multi h k r2 t2 b2 er ht2 hb2) (Mul (HMulti n) (HMulti k)) (or_introl eq_refl)).
  - destruct ma as [x| | |n u e|n r t bt e ht hb].
    + destruct mb as [y| | |k w ew|k r t2 b2 er ht2 hb2]; try (right; apply I).
      * right. unfold apart. cbn. unfold bindM, lift. destruct (pydiv x y); exact I.
      * left. exists k. constructor.
    + destruct mb as [y| | |k w ew|k r t2 b2 er ht2 hb2]; try (right; apply I). right. raises er.
    + destruct mb as [y| | |k w ew|k r t2 b2 er ht2 hb2]; try (right; apply I). right. raises er.
    + right. apply fresh_apart. eapply unit_div_fresh; eassumption.
    + destruct mb as [y| | |k w ew|k r2 t2 b2 er ht2 hb2].
      * left. exists n. constructor.
      * right. raises e.
      * right. raises e.
      * right. apply fresh_apart. eexists. eapply div_unit_fresh; eassumption.
      * right. exact (reduced_independent h n k _ _ W (means_multi h n r t bt e ht hb) (means_multi h k r2 t2 b2 er ht2 hb2) (Div (HMulti n) (HMulti k)) (or_intror eq_refl)).
  - destruct ma as [x| | |n u e|n r t bt e ht hb]; try (right; apply I).
    + destruct mb; right; exact I.
    + right. apply fresh_apart. eexists. apply unit_addsub_fresh; eassumption.
    + destruct mb as [y| | |k w ew|k r2 t2 b2 er ht2 hb2]; try (right; raises e). left. exists n. constructor.
  - destruct ma as [x| | |n u e|n r t bt e ht hb]; try (right; apply I).
    + destruct mb; right; exact I.
    + right. apply fresh_apart. eexists. apply unit_addsub_fresh; eassumption.
    + destruct mb as [y| | |k w ew|k r2 t2 b2 er ht2 hb2]; try (right; raises e). left. exists n. constructor.
  - right. destruct ma as [x| | |n u e|n r t bt e ht hb]; try exact I.
    + unfold apart. cbn. unfold bindM, lift. destruct (npow x (ev k)); exact I.
    + apply fresh_apart. exists (unit_pow u k). cbn [on_heap h_pow]. unfold h_unit_pow, unit_pow.
      eapply runs_step; [apply get_unit_ok, e|]. apply runs_pure; [exact S0|]. intro v. apply unit_fresh, S0.
    + apply fresh_apart. eexists. apply pow_fresh; eassumption.
  - destruct ma as [x| | |n u e|n r t bt e ht hb]; try (right; exact I).
    + right. apply fresh_apart. exists (unit_neg u). cbn [on_heap h_neg]. unfold h_unit_neg, unit_neg.
      eapply runs_step; [apply get_unit_ok, e|]. apply unit_fresh, S0.
    + left. exists n. constructor.
Qed.
Lemma exactly_scaling o p k h' : operands h o p -> on_heap o h = (Ok (HMulti k), h') ->
  (independent h h' k <-> ~ exists m, scaling m o).
Proof.
  intros op e. split.
  - intros i [m sc].
    assert (mm : exists a, means h (HMulti m) a) by (inversion sc; subst; inversion op; subst; eauto).
    destruct mm as [a mm]. assert (s := scaling_shares h m o a W mm sc). rewrite e in s. exact (s i).
  - intro ns. destruct (unless_scaling o p op) as [sc|ap]; [contradiction|]. unfold apart in ap. rewrite e in ap. exact (proj1 ap).
Qed.
End Share.
