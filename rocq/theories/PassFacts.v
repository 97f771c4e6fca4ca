(** * PassFacts: what a single pass leaves *)
From Coq Require Import String Ascii List ZArith QArith Qcanon Bool Reals Lia.
From Verif Require Import Py Num UnitsData UnitsStruct Units NumFacts Spec SpecFacts StructFacts ExpandFacts PassSpec.
Import ListNotations.
Local Open Scope string_scope.
Local Open Scope list_scope.

Lemma is_derived_true x : is_derived x = true <-> In (bname x) derived_names.
Proof. unfold is_derived. destruct (in_dec _ _ _); split; intro; try assumption; try discriminate; try contradiction; reflexivity. Qed.
Lemma is_derived_false x : is_derived x = false <-> ~ In (bname x) derived_names.
Proof. rewrite <- is_derived_true. destruct (is_derived x); split; congruence. Qed.

Lemma skipped_plain x l : is_derived x = false -> skipped (x :: l) = skipped l.
Proof. intro h. cbn. rewrite h. reflexivity. Qed.
Lemma skipped_two x y l : is_derived x = true -> skipped (x :: y :: l) = filter is_derived [y] ++ skipped l.
Proof. intro h. cbn. rewrite h. destruct (is_derived y); reflexivity. Qed.
Lemma skipped_one x : is_derived x = true -> skipped [x] = nil.
Proof. intro h. cbn. rewrite h. reflexivity. Qed.

Lemma list_two {A} (P : list A -> Prop) : P nil -> (forall x, P [x]) -> (forall x y l, P l -> P (y :: l) -> P (x :: y :: l)) -> forall l, P l.
Proof.
  intros h0 h1 h2 l. assert (k : P l /\ forall x, P (x :: l)); [|exact (proj1 k)].
  induction l as [|y l IH]; [auto|]. destruct IH as [a b]. split; [apply b|]. intro x. apply h2; [exact a|apply b].
Qed.

Section Pass.
  Variable P : bu -> bool.
  Variable ok : string -> Prop.
  Hypothesis sub : forall x, P x = true -> is_derived x = true.
  Hypothesis parts : forall n p e, ok n -> defn n = Some p ->
    filter P (scaled e (fst p)) = nil /\ filter P (scaled e (snd p)) = nil /\
    (forall x, In x (fst p ++ snd p) -> ok (bname x)).

  Lemma filter_sub x : is_derived x = false -> P x = false.
  Proof. intro h. destruct (P x) eqn:e; [|reflexivity]. apply sub in e. congruence. Qed.
  Lemma filter_derived l : filter P (filter is_derived l) = filter P l.
  Proof.
    induction l as [|x l IH]; [reflexivity|]. cbn. destruct (is_derived x) eqn:d; cbn; rewrite IH; [reflexivity|].
    rewrite (filter_sub x d). reflexivity.
  Qed.
  Lemma skipped_none l : filter P l = nil -> filter P (skipped l) = nil.
  Proof.
    induction l as [|x|x y l IH IH'] using list_two; intro h; [reflexivity| |].
    - destruct (is_derived x) eqn:d; [rewrite skipped_one by exact d; reflexivity|]. rewrite skipped_plain by exact d. reflexivity.
    - destruct (is_derived x) eqn:d.
      + rewrite skipped_two by exact d. rewrite filter_app, filter_derived. cbn [filter] in h |- *.
        destruct (P x); [discriminate|]. destruct (P y); [discriminate|]. cbn. apply IH, h.
      + rewrite skipped_plain by exact d. apply IH'. cbn [filter] in h |- *. destruct (P x); [discriminate|exact h].
  Qed.
  Lemma skipped_app l a : filter P a = nil -> filter P (skipped (l ++ a)) = filter P (skipped l).
  Proof.
    intro ha. induction l as [|x|x y l IH IH'] using list_two.
    - cbn [app]. rewrite skipped_none by exact ha. reflexivity.
    - destruct (is_derived x) eqn:d.
      + rewrite skipped_one by exact d. destruct a as [|y a]; cbn [app].
        * rewrite skipped_one by exact d. reflexivity.
        * rewrite skipped_two by exact d. rewrite filter_app, filter_derived. cbn [filter] in ha |- *.
          destruct (P y); [discriminate|]. cbn. apply skipped_none, ha.
      + cbn [app]. rewrite !skipped_plain by exact d. rewrite skipped_none by exact ha. reflexivity.
    - destruct (is_derived x) eqn:d.
      + cbn [app]. rewrite !skipped_two by exact d. rewrite !filter_app, IH. reflexivity.
      + change ((x :: y :: l) ++ a) with (x :: (y :: l) ++ a). rewrite !skipped_plain by exact d. exact IH'.
  Qed.

  Lemma loop_left fuel pre rest other hit t o h : (forall x, In x rest -> ok (bname x)) ->
    expand_loop fuel pre rest other hit = Ok (t, o, h) ->
    filter P t = filter P pre ++ filter P (skipped rest) /\
    filter P o = filter P other /\
    ((forall x, In x other -> ok (bname x)) -> forall x, In x o -> ok (bname x)).
  Proof.
    revert pre rest other hit. induction fuel as [|fuel IH]; intros pre rest other hit hk e;
      destruct rest as [|x rest']; cbn [expand_loop] in e; try discriminate.
    - injection e as <- <- _. cbn. rewrite app_nil_r. auto.
    - injection e as <- <- _. cbn. rewrite app_nil_r. auto.
    - destruct (derived_cases (bname x)) as [[hd [d [p [h1 [h2 h3]]]]]|[hd [h1 h3]]]; rewrite h1 in e.
      + rewrite (expand_eq d p (bexp x) h2) in e. cbn [bind fst snd] in e.
        destruct (parts _ p (bexp x) (hk x (or_introl eq_refl)) h3) as [q1 [q2 q3]].
        assert (ks : forall l z, In z (scaled (bexp x) l) -> exists z', In z' l /\ bname z = bname z').
        { clear. intros l z hz. unfold scaled in hz. apply in_map_iff in hz. destruct hz as [z' [<- hz]]. exists z'. auto. }
        apply is_derived_true in hd.
        assert (hr : filter P (skipped (x :: rest')) =
                     match rest' ++ scaled (bexp x) (fst p) with nil => nil | y :: ys => filter P [y] ++ filter P (skipped ys) end).
        { destruct rest' as [|y r]; cbn [app].
          - rewrite skipped_one by exact hd. destruct (scaled (bexp x) (fst p)) as [|y ys]; [reflexivity|].
            cbn [filter] in q1 |- *. destruct (P y); [discriminate|]. cbn. symmetry. apply skipped_none, q1.
          - rewrite skipped_two by exact hd. rewrite filter_app, filter_derived, skipped_app by exact q1. reflexivity. }
        rewrite hr.
        assert (hko : forall z, In z (rest' ++ scaled (bexp x) (fst p)) -> ok (bname z)).
        { intros z hz. apply in_app_or in hz. destruct hz as [hz|hz]; [apply hk; right; exact hz|].
          apply ks in hz. destruct hz as [z' [hz ->]]. apply q3, in_or_app. auto. }
        assert (hoo : (forall z, In z other -> ok (bname z)) -> forall z, In z (other ++ scaled (bexp x) (snd p)) -> ok (bname z)).
        { intros ho z hz. apply in_app_or in hz. destruct hz as [hz|hz]; [apply ho, hz|].
          apply ks in hz. destruct hz as [z' [hz ->]]. apply q3, in_or_app. auto. }
        assert (hf : filter P (other ++ scaled (bexp x) (snd p)) = filter P other).
        { rewrite filter_app, q2. apply app_nil_r. }
        destruct (rest' ++ scaled (bexp x) (fst p)) as [|y ys].
        * injection e as <- <- _. rewrite app_nil_r. auto.
        * apply IH in e; [|intros z hz; apply hko; right; exact hz]. destruct e as [e1 [e2 e3]].
          rewrite e1, e2, hf, filter_app, app_assoc. auto.
      + apply IH in e; [|intros z hz; apply hk; right; exact hz]. destruct e as [e1 [e2 e3]].
        apply is_derived_false in hd. rewrite skipped_plain by exact hd. rewrite e1, filter_app. cbn [filter].
        rewrite (filter_sub x hd), app_nil_r. auto.
  Qed.

  Lemma pass_left top bot : (forall x, In x (top ++ bot) -> ok (bname x)) -> exists t b,
    deconstruct_units true top bot = Ok (t, b) /\
    filter P t = filter P (skipped top) /\ filter P b = filter P (skipped bot).
  Proof.
    intro hk. unfold deconstruct_units. cbn [deconstruct_loop]. unfold deconstruct_round.
    destruct (expand_loop_ok (weights top) nil top bot false (le_n _)) as [t1 [b1 [h1 e1]]]. rewrite e1. cbn [bind].
    destruct (expand_loop_ok (weights b1) nil b1 t1 false (le_n _)) as [b2 [t2 [h2 e2]]]. rewrite e2. cbn [bind negb].
    rewrite andb_false_r. exists t2, b2. split; [reflexivity|].
    assert (g : forall fuel pre rest other hit t o h,
        expand_loop fuel pre rest other hit = Ok (t, o, h) -> exists a, o = other ++ a).
    { clear. induction fuel as [|fuel IH]; intros pre rest other hit t o h e;
        destruct rest as [|x rest']; cbn [expand_loop] in e; try discriminate.
      - injection e as _ <- _. exists nil. symmetry. apply app_nil_r.
      - injection e as _ <- _. exists nil. symmetry. apply app_nil_r.
      - destruct (derived_cases (bname x)) as [[hd [d [p [h1 [h2 h3]]]]]|[hd [h1 h3]]]; rewrite h1 in e.
        + rewrite (expand_eq d p (bexp x) h2) in e. cbn [bind fst snd] in e.
          destruct (rest' ++ scaled (bexp x) (fst p)) as [|y ys].
          * injection e as _ <- _. eauto.
          * apply IH in e. destruct e as [a ->]. exists (scaled (bexp x) (snd p) ++ a). rewrite app_assoc. reflexivity.
        + exact (IH _ _ _ _ _ _ _ e). }
    destruct (g _ _ _ _ _ _ _ _ e1) as [a ->].
    apply loop_left in e1; [|intros x hx; apply hk, in_or_app; auto]. destruct e1 as [i1 [i2 i3]].
    apply loop_left in e2; [|apply i3; intros x hx; apply hk, in_or_app; auto]. destruct e2 as [j1 [j2 j3]].
    rewrite filter_app in i2. assert (fa : filter P a = nil).
    { apply (app_inv_head (filter P bot)). rewrite i2. symmetry. apply app_nil_r. }
    cbn [filter app] in *. rewrite j2, j1, i1, skipped_app by exact fa. auto.
  Qed.
End Pass.

Lemma parts_J n p e : True -> defn n = Some p ->
  filter (fun x => is_derived x && not_J x) (scaled e (fst p)) = nil /\
  filter (fun x => is_derived x && not_J x) (scaled e (snd p)) = nil /\ (forall x : bu, In x (fst p ++ snd p) -> True).
Proof.
  intros _. unfold defn.
  repeat match goal with
  | |- context [String.eqb n ?s] =>
      destruct (String.eqb n s); [intro h; injection h as <-; split; [reflexivity|split; [reflexivity|auto]]|]
  | _ => discriminate
  end.
Qed.
Lemma parts_noW n p e : n <> "W" -> defn n = Some p ->
  filter is_derived (scaled e (fst p)) = nil /\
  filter is_derived (scaled e (snd p)) = nil /\ (forall x, In x (fst p ++ snd p) -> bname x <> "W").
Proof.
  intro nw. unfold defn. rewrite (proj2 (String.eqb_neq n "W") nw).
  repeat match goal with
  | |- context [String.eqb n ?s] =>
      let E := fresh in destruct (String.eqb n s) eqn:E; [apply String.eqb_eq in E; subst n;
        intro h; injection h as <-; try congruence; split; [reflexivity|split; [reflexivity|]];
        intros x hx; cbn in hx; intuition (subst; discriminate)|]
  | _ => discriminate
  end.
Qed.

Lemma filter_skipped l : filter is_derived (skipped l) = skipped l.
Proof.
  induction l as [|x|x y l IH IH'] using list_two; [reflexivity| |].
  - destruct (is_derived x) eqn:d; [rewrite skipped_one by exact d; reflexivity|]. rewrite skipped_plain by exact d. reflexivity.
  - destruct (is_derived x) eqn:d.
    + rewrite skipped_two by exact d. rewrite filter_app, IH. f_equal. cbn. destruct (is_derived y) eqn:dy; cbn; rewrite ?dy; reflexivity.
    + rewrite skipped_plain by exact d. exact IH'.
Qed.
Lemma filter_and l : filter (fun x => is_derived x && not_J x) l = filter not_J (filter is_derived l).
Proof. induction l as [|x l IH]; [reflexivity|]. cbn. destruct (is_derived x); cbn; rewrite IH; reflexivity. Qed.

Lemma pass_exact top bot : exists t b, deconstruct_units true top bot = Ok (t, b) /\
  filter not_J (filter is_derived t) = filter not_J (skipped top) /\
  filter not_J (filter is_derived b) = filter not_J (skipped bot) /\
  ((forall u, In u (top ++ bot) -> bname u <> "W") -> filter is_derived t = skipped top /\ filter is_derived b = skipped bot).
Proof.
  destruct (pass_left (fun x => is_derived x && not_J x) (fun _ => True)) with (top := top) (bot := bot) as [t [b [e [h1 h2]]]].
  - intros x h. apply andb_true_iff in h. apply h.
  - exact parts_J.
  - auto.
  - exists t, b. split; [exact e|]. rewrite !filter_and in h1, h2. rewrite !filter_skipped in h1, h2. split; [exact h1|].
    split; [exact h2|]. intro nw.
    destruct (pass_left is_derived (fun n => n <> "W")) with (top := top) (bot := bot) as [t' [b' [e' [k1 k2]]]].
    + auto.
    + exact parts_noW.
    + exact nw.
    + rewrite e in e'. injection e' as <- <-. rewrite !filter_skipped in k1, k2. auto.
Qed.
Lemma skipped_nil l : skipped l = nil <->
  forall i x y, nth_error l i = Some x -> nth_error l (S i) = Some y -> In (bname x) derived_names -> ~ In (bname y) derived_names.
Proof.
  induction l as [|x|x y l IH IH'] using list_two.
  - split; [intros _ [|i] x y h; discriminate h|reflexivity].
  - split.
    + intros _ [|[|i]] z w h h'; discriminate h'.
    + intros _. destruct (is_derived x) eqn:d; [rewrite skipped_one by exact d; reflexivity|]. rewrite skipped_plain by exact d. reflexivity.
  - destruct (is_derived x) eqn:d.
    + rewrite skipped_two by exact d. split.
      * intros h [|i] z w hz hw dz dw.
        -- cbn in hz, hw. injection hw as <-. apply is_derived_true in dw. cbn in h. rewrite dw in h. discriminate.
        -- cbn [filter] in h. destruct (is_derived y) eqn:dy; [discriminate|]. cbn [app] in h.
           change (nth_error (y :: l) i = Some z) in hz. change (nth_error (y :: l) (S i) = Some w) in hw.
           rewrite <- (skipped_plain y l dy) in h. exact (proj1 IH' h i z w hz hw dz dw).
      * intro h. assert (dy : is_derived y = false).
        { apply is_derived_false. apply (h 0%nat x y); [reflexivity|reflexivity|]. apply is_derived_true, d. }
        cbn [filter]. rewrite dy. cbn [app]. rewrite <- (skipped_plain y l dy). apply (proj2 IH').
        intros i z w hz hw. exact (h (S i) z w hz hw).
    + rewrite skipped_plain by exact d. rewrite IH'. split.
      * intros h [|i] z w hz hw dz; [|exact (h i z w hz hw dz)]. cbn in hz. injection hz as <-.
        apply is_derived_false in d. contradiction.
      * intros h i z w hz hw. exact (h (S i) z w hz hw).
Qed.
Lemma pass_clean top bot : (forall u, In u (top ++ bot) -> bname u <> "W") -> exists t b,
  deconstruct_units true top bot = Ok (t, b) /\
  ((forall u, In u (t ++ b) -> ~ In (bname u) derived_names) <->
   (forall l i x y, In l [top; bot] -> nth_error l i = Some x -> nth_error l (S i) = Some y ->
      In (bname x) derived_names -> ~ In (bname y) derived_names)).
Proof.
  intro nw. destruct (pass_exact top bot) as [t [b [e [_ [_ h]]]]]. destruct (h nw) as [h1 h2]. exists t, b. split; [exact e|].
  assert (k : forall l, filter is_derived l = nil <-> forall u, In u l -> ~ In (bname u) derived_names).
  { clear. induction l as [|x l IH]; [split; [intros _ u []|reflexivity]|]. cbn. destruct (is_derived x) eqn:d.
    - split; [discriminate|]. intro h. apply is_derived_true in d. destruct (h x (or_introl eq_refl) d).
    - rewrite IH. apply is_derived_false in d. split; [intros h u [<-|hu]; [exact d|exact (h u hu)]|intros h u hu; exact (h u (or_intror hu))]. }
  assert (k2 : (forall u, In u (t ++ b) -> ~ In (bname u) derived_names) <-> skipped top = nil /\ skipped bot = nil).
  { rewrite <- h1, <- h2, !k. split.
    - intro q. split; intros u hu; apply q, in_or_app; auto.
    - intros [q1 q2] u hu. apply in_app_or in hu. destruct hu; auto. }
  rewrite k2, !skipped_nil. split.
  - intros [q1 q2] l i x y [<-|[<-|[]]]; [apply q1|apply q2].
  - intro q. split; intros i x y; apply q; cbn; auto.
Qed.
Lemma pass_case : skipped [BU "W" (eint 1); BU "Pa" (eint 1); BU "V" (eint 2); BU "m" (eint 1); BU "J" (eint 1); BU "C" (eint 3)]
  = [BU "Pa" (eint 1); BU "C" (eint 3)].
Proof. reflexivity. Qed.
