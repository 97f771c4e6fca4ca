(** * HeapFacts: the steps of the pipeline on the heap *)
From Coq Require Import String Ascii List ZArith QArith Qcanon Bool Lia.
From Verif Require Import Py Num UnitsData UnitsStruct Units Heap HeapSpec.
Import ListNotations.
Local Open Scope string_scope.
Local Open Scope list_scope.
Local Open Scope nat_scope.

(** ** Lists *)
Lemma sn_length {A} n (x : A) l : length (set_nth n x l) = length l.
Proof. revert n. induction l as [|y l IH]; intros [|n]; cbn; auto. Qed.
Lemma sn_eq {A} n (x : A) l : n < length l -> nth_error (set_nth n x l) n = Some x.
Proof. revert n. induction l as [|y l IH]; intros [|n] h; cbn in *; try lia; auto. apply IH. lia. Qed.
Lemma sn_neq {A} n m (x : A) l : n <> m -> nth_error (set_nth n x l) m = nth_error l m.
Proof.
  revert n m. induction l as [|y l IH]; intros n m h; destruct n, m; cbn; auto; try congruence.
Qed.
Lemma keeps_refl {A} (l : list A) : keeps l l.
Proof. intros i x h. exact h. Qed.
Lemma keeps_trans {A} (a b c : list A) : keeps a b -> keeps b c -> keeps a c.
Proof. intros h1 h2 i x h. auto. Qed.
Lemma keeps_app {A} (l m : list A) : keeps l (l ++ m).
Proof. intros i x h. rewrite nth_error_app1; [exact h|]. apply nth_error_Some. congruence. Qed.
Lemma keeps_set {A} (l0 l : list A) i x : keeps l0 l -> length l0 <= i -> keeps l0 (set_nth i x l).
Proof.
  intros h hi j y hj. rewrite sn_neq; [apply h, hj|]. intros ->.
  assert (j < length l0) by (apply nth_error_Some; congruence). lia.
Qed.
Lemma keeps_length {A} (l l' : list A) : keeps l l' -> length l <= length l'.
Proof.
  intro h. destruct (Nat.le_gt_cases (length l) (length l')) as [g|g]; [exact g|exfalso].
  destruct (nth_error l (length l')) eqn:f.
  - apply h in f. assert (length l' < length l') by (apply nth_error_Some; congruence). lia.
  - apply nth_error_None in f. lia.
Qed.
Lemma in_set_nth {A} i (x y : A) l : In y (set_nth i x l) -> y = x \/ In y l.
Proof.
  revert i. induction l as [|z l IH]; intros [|i]; cbn; auto; intros [k|k]; auto. apply IH in k. tauto.
Qed.
Lemma nodup_full l : NoDup l -> Nat.eqb (length (nodup Nat.eq_dec l)) (length l) = true.
Proof. intro h. rewrite nodup_fixed_point by exact h. apply Nat.eqb_refl. Qed.

Section Facts.
Context {T : Type} `{NT : Num T}.
Notation heap := (@heap T).
Notation M := (@M T).

(** ** Heaps that extend a given one *)
Lemma unchanged_refl (h : heap) : unchanged h h.
Proof. repeat split; apply keeps_refl. Qed.
Lemma unchanged_trans (a b c : heap) : unchanged a b -> unchanged b c -> unchanged a c.
Proof. intros (p1 & p2 & p3 & p4) (q1 & q2 & q3 & q4). repeat split; eapply keeps_trans; eassumption. Qed.

Definition sound (h0 h : heap) : Prop := unchanged h0 h /\ wf h.
Definition fresh (h0 : heap) (cs : list nat) : Prop := Forall (fun c => length (cells h0) <= c) cs.

Lemma stored_unchanged (h h' : heap) cs b : keeps (cells h) (cells h') -> stored h cs b -> stored h' cs b.
Proof. intros k s. induction s as [|c x cs b e s IH]; constructor; [apply k, e | exact IH]. Qed.
Lemma stored_length (h : heap) cs b : stored h cs b -> length cs = length b.
Proof. intro s. induction s; cbn; congruence. Qed.
Lemma stored_range (h : heap) cs b : stored h cs b -> Forall (fun c => c < length (cells h)) cs.
Proof. intro s. induction s; constructor; auto. apply nth_error_Some. congruence. Qed.
Lemma stored_app (h : heap) c1 b1 c2 b2 : stored h c1 b1 -> stored h c2 b2 -> stored h (c1 ++ c2) (b1 ++ b2).
Proof. apply Forall2_app. Qed.
Lemma stored_nil (h : heap) : stored h [] [].
Proof. constructor. Qed.
Lemma holds_unchanged (h h' : heap) l b : unchanged h h' -> holds h l b -> holds h' l b.
Proof. intros (k1 & k2 & _) (cs & e & s). exists cs. split; [apply k2, e | eapply stored_unchanged; eassumption]. Qed.
Lemma means_unchanged (h h' : heap) v p : unchanged h h' -> means h v p -> means h' v p.
Proof.
  intros u m. destruct m; try constructor.
  - apply u, H.
  - apply u, H.
  - eapply holds_unchanged; eassumption.
  - eapply holds_unchanged; eassumption.
Qed.

(** ** Primitive steps *)
Lemma sound_new_cells h0 (h : heap) xs :
  sound h0 h -> sound h0 (HP (cells h ++ xs) (lists h) (uobjs h) (mobjs h)).
Proof.
  intros [(k1 & k2 & k3 & k4) (w1 & w2 & w3)]. split.
  - repeat split; cbn; auto. eapply keeps_trans; [exact k1 | apply keeps_app].
  - split; [|split; assumption]. cbn. intros cs i. destruct (w1 cs i) as [n f]. split; [exact n|].
    eapply Forall_impl; [|exact f]. cbn. intros c l. rewrite app_length. lia.
Qed.
Lemma sound_new_list h0 (h : heap) cs :
  sound h0 h -> NoDup cs -> Forall (fun c => c < length (cells h)) cs ->
  sound h0 (HP (cells h) (lists h ++ [cs]) (uobjs h) (mobjs h)).
Proof.
  intros [(k1 & k2 & k3 & k4) (w1 & w2 & w3)] n f. split.
  - repeat split; cbn; auto. eapply keeps_trans; [exact k2 | apply keeps_app].
  - split; [|split].
    + cbn. intros cs' i. apply in_app_or in i as [i|[<-|[]]]; auto.
    + cbn. intros r i. rewrite app_length. specialize (w2 r i). lia.
    + cbn. rewrite app_length. lia.
Qed.
Lemma sound_set_list h0 (h : heap) l cs :
  sound h0 h -> length (lists h0) <= l -> NoDup cs -> Forall (fun c => c < length (cells h)) cs ->
  sound h0 (HP (cells h) (set_nth l cs (lists h)) (uobjs h) (mobjs h)).
Proof.
  intros [(k1 & k2 & k3 & k4) (w1 & w2 & w3)] i n f. split.
  - repeat split; cbn; auto. apply keeps_set; assumption.
  - split; [|split].
    + cbn. intros cs' j. apply in_set_nth in j as [->|j]; auto.
    + cbn. intros r j. rewrite sn_length. auto.
    + cbn. rewrite sn_length. exact w3.
Qed.
Lemma sound_new_unit h0 (h : heap) u : sound h0 h -> sound h0 (HP (cells h) (lists h) (uobjs h ++ [u]) (mobjs h)).
Proof.
  intros [(k1 & k2 & k3 & k4) w]. split; [|exact w].
  repeat split; cbn; auto. eapply keeps_trans; [exact k3 | apply keeps_app].
Qed.
Lemma sound_new_multi h0 (h : heap) r :
  sound h0 h -> mrt r < length (lists h) -> mrb r < length (lists h) ->
  sound h0 (HP (cells h) (lists h) (uobjs h) (mobjs h ++ [r])).
Proof.
  intros [(k1 & k2 & k3 & k4) (w1 & w2 & w3)] i j. split.
  - repeat split; cbn; auto. eapply keeps_trans; [exact k4 | apply keeps_app].
  - split; [exact w1 | split; [|exact w3]]. cbn. intros r' k. apply in_app_or in k as [k|[<-|[]]]; auto.
Qed.

(** Only the BaseUnits at [w] are changed. *)
Definition only (h h' : heap) (w : list nat) : Prop :=
  lists h' = lists h /\ uobjs h' = uobjs h /\ mobjs h' = mobjs h /\ length (cells h') = length (cells h)
  /\ (forall c, ~ In c w -> nth_error (cells h') c = nth_error (cells h) c).
Lemma only_refl (h : heap) w : only h h w.
Proof. repeat split; auto. Qed.
Lemma only_trans (a b c : heap) w : only a b w -> only b c w -> only a c w.
Proof.
  intros (p1 & p2 & p3 & p4 & p5) (q1 & q2 & q3 & q4 & q5). repeat split; try congruence.
  intros x n. rewrite q5, p5; auto.
Qed.
Lemma only_mono (a b : heap) w w' : only a b w -> incl w w' -> only a b w'.
Proof. intros (p1 & p2 & p3 & p4 & p5) i. repeat split; auto. Qed.
Lemma only_sound h0 (h h' : heap) w : sound h0 h -> fresh h0 w -> only h h' w -> sound h0 h'.
Proof.
  intros [(k1 & k2 & k3 & k4) (w1 & w2 & w3)] f (p1 & p2 & p3 & p4 & p5). split.
  - repeat split; rewrite ?p1, ?p2, ?p3; auto.
    intros i x e. rewrite p5; [apply k1, e|]. intro j. unfold fresh in f. rewrite Forall_forall in f. apply f in j.
    assert (i < length (cells h0)) by (apply nth_error_Some; congruence). lia.
  - unfold wf. rewrite p1, p3, p4. repeat split; auto; apply w1 || apply w2; auto.
Qed.
Lemma only_stored (h h' : heap) w cs b :
  only h h' w -> (forall c, In c cs -> ~ In c w) -> stored h cs b -> stored h' cs b.
Proof.
  intros (_ & _ & _ & _ & p5) d s. induction s as [|c x cs b e s IH]; constructor.
  - rewrite p5; [exact e|]. apply d. now left.
  - apply IH. intros c' i. apply d. now right.
Qed.
Lemma only_set (h : heap) c x w : In c w -> only h (HP (set_nth c x (cells h)) (lists h) (uobjs h) (mobjs h)) w.
Proof.
  intro i. repeat split; cbn; auto; [apply sn_length|]. intros c' n. apply sn_neq. intros ->. auto.
Qed.

(** ** Running a computation against its pure counterpart *)
Definition runs {A B} (h0 : heap) (m : M A) (h : heap) (r : res B) (Q : B -> A -> heap -> Prop) : Prop :=
  exists h', sound h0 h' /\
    match r with
    | Ok y => exists x, m h = (Ok x, h') /\ Q y x h'
    | Raise e => m h = (Raise e, h')
    end.
Lemma runs_bind {A B C D} h0 (m : M A) (f : A -> M C) h (r : res B) (g : B -> res D) Q Q' :
  runs h0 m h r Q ->
  (forall y x h', sound h0 h' -> Q y x h' -> runs h0 (f x) h' (g y) Q') ->
  runs h0 (bindM m f) h (bind r g) Q'.
Proof.
  intros (h' & s & e) k. destruct r as [y|x]; cbn.
  - destruct e as (x & e & q). destruct (k y x h' s q) as (h2 & s2 & e2). exists h2. split; [exact s2|].
    unfold bindM. rewrite e. exact e2.
  - exists h'. split; [exact s|]. unfold bindM. rewrite e. reflexivity.
Qed.
Lemma runs_step {A B C} h0 (m : M A) (f : A -> M C) h h' x (r : res B) Q :
  m h = (Ok x, h') -> runs h0 (f x) h' r Q -> runs h0 (bindM m f) h r Q.
Proof. intros e k. unfold runs, bindM. rewrite e. exact k. Qed.
Lemma runs_lift {A} h0 (r : res A) h : sound h0 h -> runs h0 (lift r) h r (fun y x h' => x = y /\ h' = h).
Proof. intro s. exists h. split; [exact s|]. destruct r as [y|e]; [exists y|]; auto. Qed.
Lemma runs_ret {A B} h0 (x : A) h (y : B) (Q : B -> A -> heap -> Prop) :
  sound h0 h -> Q y x h -> runs h0 (ret x) h (Ok y) Q.
Proof. intros s q. exists h. split; [exact s|]. exists x. auto. Qed.
Lemma runs_fail {A B} h0 h e (Q : B -> A -> heap -> Prop) : sound h0 h -> runs h0 (fail e) h (Raise e) Q.
Proof. intro s. exists h. split; auto. Qed.
Lemma runs_weaken {A B} h0 (m : M A) h (r : res B) (Q Q' : B -> A -> heap -> Prop) :
  runs h0 m h r Q -> (forall y x h', sound h0 h' -> Q y x h' -> Q' y x h') -> runs h0 m h r Q'.
Proof.
  intros (h' & s & e) k. exists h'. split; [exact s|]. destruct r; [|exact e].
  destruct e as (x & e & q). exists x. auto.
Qed.
(** A computation that is only a step. *)
Lemma runs_last {A B} h0 (m : M A) h h' x (y : B) (Q : B -> A -> heap -> Prop) :
  m h = (Ok x, h') -> sound h0 h' -> Q y x h' -> runs h0 m h (Ok y) Q.
Proof. intros e s q. exists h'. split; [exact s|]. exists x. auto. Qed.

(** ** Reading and allocating *)
Lemma get_cell_ok (h : heap) c x : nth_error (cells h) c = Some x -> get_cell c h = (Ok x, h).
Proof. intro e. unfold get_cell. rewrite e. reflexivity. Qed.
Lemma get_cells (h : heap) cs b : stored h cs b -> mapMM get_cell cs h = (Ok b, h).
Proof.
  intro s. induction s as [|c x cs b e s IH]; [reflexivity|].
  cbn [mapMM]. unfold bindM. rewrite (get_cell_ok _ _ _ e), IH. reflexivity.
Qed.
Lemma get_list_ok (h : heap) l cs : nth_error (lists h) l = Some cs -> get_list l h = (Ok cs, h).
Proof. intro e. unfold get_list. rewrite e. reflexivity. Qed.
Lemma read_half_ok (h : heap) l b : holds h l b -> read_half l h = (Ok b, h).
Proof. intros (cs & e & s). unfold read_half, bindM. rewrite (get_list_ok _ _ _ e). apply get_cells, s. Qed.
Lemma new_cells (h : heap) b :
  mapMM new_cell b h = (Ok (seq (length (cells h)) (length b)), HP (cells h ++ b) (lists h) (uobjs h) (mobjs h)).
Proof.
  revert h. induction b as [|x b IH]; intro h.
  - cbn. unfold ret. rewrite app_nil_r. destruct h; reflexivity.
  - cbn [mapMM]. unfold bindM, new_cell at 1. rewrite IH. cbn. unfold ret.
    rewrite app_length, <- app_assoc. cbn. rewrite Nat.add_1_r. reflexivity.
Qed.
Lemma stored_seq (h : heap) b ls us (ms : list (@mrec T)) : stored (T:=T) (HP (cells h ++ b) ls us ms) (seq (length (cells h)) (length b)) b.
Proof.
  unfold stored. cbn. generalize (cells h) as l. induction b as [|x b IH]; intro l; cbn; constructor.
  - rewrite nth_error_app2, Nat.sub_diag by lia. reflexivity.
  - specialize (IH (l ++ [x])). rewrite app_length, <- app_assoc in IH. cbn in IH. rewrite Nat.add_1_r in IH. exact IH.
Qed.

(** [l] is a list object made after [h], of BaseUnits made after [h]. *)
Definition block (h h' : heap) (l : nat) (cs : list nat) (b : half) : Prop :=
  unchanged h h' /\ l = length (lists h) /\ nth_error (lists h') l = Some cs /\ stored h' cs b
  /\ NoDup cs /\ Forall (fun c => length (cells h) <= c < length (cells h')) cs.
Lemma alloc_half_ok h0 (h : heap) b :
  sound h0 h -> exists h' l cs, alloc_half b h = (Ok l, h') /\ sound h0 h' /\ block h h' l cs b.
Proof.
  intro s.
  exists (HP (cells h ++ b) (lists h ++ [seq (length (cells h)) (length b)]) (uobjs h) (mobjs h)),
    (length (lists h)), (seq (length (cells h)) (length b)).
  assert (range : Forall (fun c => length (cells h) <= c < length (cells h ++ b)) (seq (length (cells h)) (length b))).
  { apply Forall_forall. intros c i. apply in_seq in i. rewrite app_length. lia. }
  assert (hs := sound_new_cells h0 h b s).
  split; [|split].
  - unfold alloc_half, bindM. rewrite new_cells. reflexivity.
  - apply (sound_new_list h0 _ _ hs); [apply seq_NoDup|].
    eapply Forall_impl; [|exact range]. cbn. intros; lia.
  - split; [|split; [reflexivity|split; [|split; [|split]]]].
    + repeat split; cbn; try apply keeps_app; apply keeps_refl.
    + cbn. rewrite nth_error_app2, Nat.sub_diag by lia. reflexivity.
    + apply stored_seq.
    + apply seq_NoDup.
    + exact range.
Qed.
Lemma wf_list (h : heap) l cs : wf h -> nth_error (lists h) l = Some cs -> NoDup cs.
Proof. intros (w & _) e. apply w. eapply nth_error_In, e. Qed.
Lemma deepcopy_ok h0 (h : heap) l b :
  sound h0 h -> holds h l b -> exists h' l' cs, deepcopy l h = (Ok l', h') /\ sound h0 h' /\ block h h' l' cs b.
Proof.
  intros s (cs & e & st). destruct (alloc_half_ok h0 h b s) as (h' & l' & cs' & a & s' & bl).
  exists h', l', cs'. split; [|auto]. unfold deepcopy, bindM at 1. rewrite (get_list_ok _ _ _ e).
  rewrite nodup_full by (eapply wf_list; [apply s|exact e]). unfold bindM. rewrite (get_cells _ _ _ st). exact a.
Qed.
Lemma block_holds (h h' : heap) l cs b : block h h' l cs b -> holds h' l b.
Proof. intros (_ & _ & e & s & _). exists cs. auto. Qed.
Lemma NoDup_app_intro {A} (a b : list A) : NoDup a -> NoDup b -> (forall x, In x a -> ~ In x b) -> NoDup (a ++ b).
Proof.
  intros ha hb d. induction ha as [|x a n ha IH]; [exact hb|]. cbn. constructor.
  - intro i. apply in_app_or in i as [i|i]; [auto|]. apply (d x); [now left|exact i].
  - apply IH. intros y i. apply d. now right.
Qed.
Lemma NoDup_app_elim {A} (a b : list A) : NoDup (a ++ b) -> NoDup a /\ NoDup b /\ (forall x, In x a -> ~ In x b).
Proof.
  induction a as [|x a IH]; cbn; intro n.
  - repeat split; [constructor|exact n|auto].
  - inversion n as [|? ? ni n']; subst. destruct (IH n') as (p & q & r). repeat split; auto.
    + constructor; [|exact p]. intro i. apply ni, in_or_app. auto.
    + intros y [<-|i] j; [apply ni, in_or_app; auto | exact (r y i j)].
Qed.
(** Two blocks, one after the other, and their concatenation. *)
Lemma concat_ok h0 (h h1 h2 : heap) l1 l2 c1 c2 b1 b2 :
  sound h0 h2 -> block h h1 l1 c1 b1 -> block h1 h2 l2 c2 b2 ->
  exists h' l, concat l1 l2 h2 = (Ok l, h') /\ sound h0 h' /\ unchanged h2 h' /\ holds h' l (b1 ++ b2).
Proof.
  intros s (u1 & _ & e1 & s1 & n1 & r1) (u2 & _ & e2 & s2 & n2 & r2).
  assert (e1' : nth_error (lists h2) l1 = Some c1) by (apply u2, e1).
  assert (s1' : stored h2 c1 b1) by (eapply stored_unchanged; [apply u2|exact s1]).
  assert (st : stored h2 (c1 ++ c2) (b1 ++ b2)) by (apply stored_app; assumption).
  exists (HP (cells h2) (lists h2 ++ [c1 ++ c2]) (uobjs h2) (mobjs h2)), (length (lists h2)).
  split; [|split; [|split]].
  - unfold concat, bindM. rewrite (get_list_ok _ _ _ e1'), (get_list_ok _ _ _ e2). reflexivity.
  - apply sound_new_list; [exact s | | eapply stored_range, st].
    apply NoDup_app_intro; auto. rewrite Forall_forall in r1, r2. intros x i j. apply r1 in i. apply r2 in j. lia.
  - repeat split; cbn; try apply keeps_app; apply keeps_refl.
  - exists (c1 ++ c2). split; [|exact st]. cbn. rewrite nth_error_app2, Nat.sub_diag by lia. reflexivity.
Qed.

(** ** Two lists of one's own *)
Record own (h0 h : heap) (lt lb : nat) (ct cb : list nat) (t b : half) : Prop := Own {
  own_lt : nth_error (lists h) lt = Some ct;
  own_lb : nth_error (lists h) lb = Some cb;
  own_ne : lt <> lb;
  own_ft : length (lists h0) <= lt;
  own_fb : length (lists h0) <= lb;
  own_nd : NoDup (ct ++ cb);
  own_fr : fresh h0 (ct ++ cb);
  own_st : stored h ct t;
  own_sb : stored h cb b }.
Definition owned (h0 h : heap) (lt lb : nat) (t b : half) : Prop := exists ct cb, own h0 h lt lb ct cb t b.
Lemma own_holds h0 h lt lb t b : owned h0 h lt lb t b -> holds h lt t /\ holds h lb b.
Proof. intros (ct & cb & o). split; [exists ct | exists cb]; split; apply o. Qed.

Lemma unchanged_lengths (h h' : heap) : unchanged h h' -> length (cells h) <= length (cells h') /\ length (lists h) <= length (lists h').
Proof. intros (k1 & k2 & _). split; apply keeps_length; assumption. Qed.
Lemma two_blocks h0 (h h1 h2 : heap) l1 l2 c1 c2 b1 b2 :
  sound h0 h -> block h h1 l1 c1 b1 -> block h1 h2 l2 c2 b2 -> own h0 h2 l1 l2 c1 c2 b1 b2.
Proof.
  intros [u _] (u1 & q1 & e1 & s1 & n1 & r1) (u2 & q2 & e2 & s2 & n2 & r2).
  destruct (unchanged_lengths _ _ u) as [lc ll]. destruct (unchanged_lengths _ _ u1) as [lc1 ll1].
  assert (l1 < length (lists h1)) by (apply nth_error_Some; congruence).
  rewrite Forall_forall in r1, r2.
  constructor; auto; try lia.
  - apply u2, e1.
  - apply NoDup_app_intro; auto. intros x i j. apply r1 in i. apply r2 in j. lia.
  - apply Forall_forall. intros c i. apply in_app_or in i as [i|i]; [apply r1 in i | apply r2 in i]; lia.
  - eapply stored_unchanged; [apply u2|exact s1].
Qed.

(** ** Prefixes *)
Lemma h_prefixes_ok h0 h lt lb t b :
  sound h0 h -> holds h lt t -> holds h lb b ->
  runs h0 (h_prefixes lt lb) h (deconstruct_unit_prefixes t b)
    (fun y x h' => snd x = snd y /\ owned h0 h' (fst (fst x)) (snd (fst x)) (fst (fst y)) (snd (fst y))).
Proof.
  intros s ht hb. unfold h_prefixes.
  eapply runs_step; [apply read_half_ok, ht|]. eapply runs_step; [apply read_half_ok, hb|].
  destruct (deconstruct_unit_prefixes t b) as [[[t' b'] f]|e].
  - eapply runs_step; [reflexivity|]. cbn beta iota.
    destruct (alloc_half_ok h0 h t' s) as (h1 & l1 & c1 & a1 & s1 & k1).
    eapply runs_step; [exact a1|].
    destruct (alloc_half_ok h0 h1 b' s1) as (h2 & l2 & c2 & a2 & s2 & k2).
    eapply runs_step; [exact a2|]. apply runs_ret; [exact s2|]. cbn. split; [reflexivity|].
    exists c1, c2. eapply two_blocks; [exact s|exact k1|exact k2].
  - exists h. split; [exact s|]. reflexivity.
Qed.
End Facts.
