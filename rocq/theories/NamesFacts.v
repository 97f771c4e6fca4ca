(** * NamesFacts: which names the pipeline can produce *)
From Coq Require Import String Ascii List ZArith QArith Qcanon Bool Reals Qreals Lia Lra.
From Verif Require Import Py Num UnitsData UnitsStruct Units NumFacts Spec SpecFacts StructFacts CancelFacts
  ExpandFacts PrefixFacts SimplifyFacts OpFacts.
Import ListNotations.
Local Open Scope string_scope.
Local Open Scope list_scope.

Section Names.
Variable P : string -> Prop.
Definition alln (l : half) : Prop := forall x, In x l -> P (bname x).

Lemma alln_app l1 l2 : alln (l1 ++ l2) <-> alln l1 /\ alln l2.
Proof.
  unfold alln. split.
  - intro h. split; intros x hx; apply h; apply in_or_app; auto.
  - intros [h1 h2] x hx. apply in_app_or in hx. destruct hx; auto.
Qed.
Lemma alln_cons x l : alln (x :: l) <-> P (bname x) /\ alln l.
Proof.
  unfold alln. split.
  - intro h. split; [apply h; left; reflexivity|]. intros y hy. apply h. right. exact hy.
  - intros [h1 h2] y [<-|hy]; auto.
Qed.
Lemma alln_scaled e l : alln l -> alln (scaled e l).
Proof. intros h x hx. apply in_map_iff in hx. destruct hx as [y [<- hy]]. cbn. apply h. exact hy. Qed.

(** Names occurring in the definitions and their replacements. *)
Definition core_names : list string := ["kg"; "m"; "s"; "J"; "lbf"; "in"; "g"; "A"; "W"; "K"].
Hypothesis core : forall n, In n core_names -> P n.

Lemma alln_core l : (forall x, In x l -> In (bname x) core_names) -> alln l.
Proof. intros h x hx. apply core, h, hx. Qed.

Lemma defn_core n p : defn n = Some p -> alln (fst p) /\ alln (snd p).
Proof.
  unfold defn.
  repeat match goal with
  | |- context [String.eqb n ?s] => destruct (String.eqb n s);
      [intro h; injection h as <-; split; apply alln_core; cbn [fst snd]; intros x hx; cbn in hx;
       repeat (destruct hx as [<-|hx]; [cbn; tauto|]); destruct hx|]
  | _ => discriminate
  end.
Qed.

Lemma expand_names d p e : defn d = Some p -> alln (scaled e (fst p)) /\ alln (scaled e (snd p)).
Proof. intro h. destruct (defn_core d p h). split; apply alln_scaled; auto. Qed.

Lemma expand_loop_names fuel pre rest other hit t o h' :
  expand_loop fuel pre rest other hit = Ok (t, o, h') -> alln pre -> alln rest -> alln other -> alln t /\ alln o.
Proof.
  revert pre rest other hit. induction fuel as [|fuel IH]; intros pre rest other hit h hp hr ho;
    destruct rest as [|x rest']; cbn [expand_loop] in h; try discriminate.
  - injection h as <- <- <-. auto.
  - injection h as <- <- <-. auto.
  - apply alln_cons in hr. destruct hr as [hx hr].
    destruct (derived_cases (bname x)) as [[hd [d [p [h1 [h2 h3]]]]]|[hd [h1 h3]]]; rewrite h1 in h.
    + rewrite (expand_eq d p (bexp x) h2) in h. cbn [bind fst snd] in h.
      destruct (expand_names _ _ (bexp x) h3) as [n1 n2].
      assert (ha : alln (rest' ++ scaled (bexp x) (fst p))) by (apply alln_app; auto).
      assert (hb : alln (other ++ scaled (bexp x) (snd p))) by (apply alln_app; auto).
      destruct (rest' ++ scaled (bexp x) (fst p)) as [|y ys].
      * injection h as <- <- <-. auto.
      * apply alln_cons in ha. destruct ha as [hy hys]. eapply IH; eauto.
        apply alln_app. split; auto. apply alln_cons. split; auto. intros z [].
    + eapply IH; eauto. apply alln_app. split; auto. apply alln_cons. split; auto. intros z [].
Qed.

Lemma decon_loop_names fuel one top bot t b :
  deconstruct_loop fuel one top bot = Ok (t, b) -> alln top -> alln bot -> alln t /\ alln b.
Proof.
  revert top bot. induction fuel as [|fuel IH]; intros top bot h h1 h2; cbn in h; [discriminate|].
  unfold deconstruct_round in h.
  destruct (expand_loop (weights top) nil top bot false) as [[[t1 b1] k1]|] eqn:e1; cbn [bind] in h; [|discriminate].
  destruct (expand_loop (weights b1) nil b1 t1 false) as [[[b2 t2] k2]|] eqn:e2; cbn [bind] in h; [|discriminate].
  destruct (expand_loop_names _ _ _ _ _ _ _ _ e1) as [n1 n2]; auto; [intros z []|].
  destruct (expand_loop_names _ _ _ _ _ _ _ _ e2) as [n3 n4]; auto; [intros z []|].
  destruct ((k1 || k2) && negb one); [eapply IH; eauto|]. injection h as <- <-. auto.
Qed.
Lemma decon_names one top bot t b : deconstruct_units one top bot = Ok (t, b) -> alln top -> alln bot -> alln t /\ alln b.
Proof. apply decon_loop_names. Qed.

Lemma combine_alln l : alln l -> alln (combine_units l).
Proof.
  intros h x hx. assert (hn : In (bname x) (map bname (combine_units l))) by (apply in_map; exact hx).
  rewrite combine_names in hn. apply in_map_iff in hn. destruct hn as [y [<- hy]]. apply h. exact hy.
Qed.
Lemma cancel_alln top bot t b : cancel_units top bot = (t, b) -> alln top -> alln bot -> alln t /\ alln b.
Proof.
  intros h h1 h2. destruct (cancel_names _ _ _ _ h) as [c1 c2]. split.
  - intros x hx. destruct (c1 x hx) as [v [hv <-]]. apply h1. exact hv.
  - intros x hx. destruct (c2 x hx) as [v [hv <-]]. apply in_app_or in hv. destruct hv; auto.
Qed.

Hypothesis derv : forall n, In n derived_names -> P n.
Lemma simplify_loop_names fuel top bot t b : simplify_loop fuel top bot = Ok (t, b) -> alln top -> alln bot -> alln t /\ alln b.
Proof.
  revert top bot. induction fuel as [|fuel IH]; intros top bot h h1 h2; cbn in h; [discriminate|].
  unfold simplify_round in h.
  destruct (mapM_match top bot DECONSTRUCTABLE_UNITS (fun _ h => h)) as [ms [e hm]]. rewrite e in h. cbn [bind] in h.
  destruct (somes ms) as [|m ms'] eqn:es; cbn [bind] in h; [injection h as <- <-; auto|].
  destruct (Qc_eq_bool (sum_matches (m :: ms')) (qc 0)) eqn:z; cbn [bind] in h; [injection h as <- <-; auto|].
  destruct (best ms' m) as [u k] eqn:eb. pose proof (best_in ms' m) as hb. rewrite eb in hb.
  destruct (hm u k hb) as [p mp]. pose proof (ma_defn _ _ _ _ _ mp) as md.
  destruct (derived_cases u) as [[hd [d [p' [q1 [q2 q3]]]]]|[hd [q1 q3]]]; [|congruence].
  assert (p' = p) by congruence. subst p'.
  rewrite q1, (expand_eq d p k q2) in h. cbn [bind fst snd] in h.
  destruct (cancel_units (top ++ scaled k (snd p)) (bot ++ scaled k (fst p))) as [t1 b1] eqn:c.
  cbn [bind] in h. destruct (expand_names u p k md) as [n1 n2].
  destruct (cancel_alln _ _ _ _ c) as [n3 n4]; [apply alln_app; auto|apply alln_app; auto|].
  eapply IH; eauto. apply alln_app. split; auto. apply alln_cons. split; [apply derv; exact hd|intros y []].
Qed.

Lemma common_names top bot t b : do_common_simplifications top bot = Ok (t, b) -> alln top -> alln bot -> alln t /\ alln b.
Proof.
  unfold do_common_simplifications, UNIT_SIMPLIFICATIONS. cbn [common_simpl].
  rewrite parse_s1, parse_s2, parse_s3. cbn [bind fst snd]. rewrite parse_r1, parse_r2.
  intros h h1 h2.
  destruct (_ && _) in h; [injection h as <- <-|destruct (_ && _) in h; [injection h as <- <-|destruct (_ && _) in h; injection h as <- <-; auto]].
  all: split; apply alln_core; intros x hx; cbn in hx; repeat (destruct hx as [<-|hx]; [cbn; tauto|]); destruct hx.
Qed.

Lemma simplify_names top bot t b : simplify_units top bot = Ok (t, b) -> alln top -> alln bot -> alln t /\ alln b.
Proof.
  unfold simplify_units. intros h h1 h2.
  destruct (simplify_loop (simplify_fuel top bot) top bot) as [[t1 b1]|] eqn:e; cbn [bind fst snd] in h; [|discriminate].
  destruct (simplify_loop_names _ _ _ _ _ e h1 h2). eapply common_names; eauto.
Qed.

Lemma reduce_tail_names ct cb top bot t b : reduce_tail ct cb top bot = Ok (t, b) -> alln top -> alln bot -> alln t /\ alln b.
Proof.
  unfold reduce_tail. intros h h1 h2.
  destruct (deconstruct_units false top bot) as [[t1 b1]|] eqn:e; cbn [bind] in h; [|discriminate].
  destruct (decon_names _ _ _ _ _ e h1 h2) as [n1 n2].
  destruct (cancel_units (if ct then combine_units t1 else t1) (if cb then combine_units b1 else b1)) as [t2 b2] eqn:c.
  destruct (cancel_alln _ _ _ _ c); [destruct ct; auto using combine_alln|destruct cb; auto using combine_alln|].
  eapply simplify_names; eauto.
Qed.
End Names.

(** Unprefixed names are kept by the pipeline, and are admissible. *)
Lemma unprefixed_core n : In n core_names -> unprefixed n.
Proof.
  cbn. intros h. destruct h as [<-|[<-|[<-|[<-|[<-|[<-|[<-|[<-|[<-|[<-|[]]]]]]]]]]].
  all: try (left; eexists; reflexivity). all: right; try (right; cbn; tauto).
  all: left; eexists; eexists; split; [reflexivity|]; cbn; intros [h|[h|[h|[h|[h|[]]]]]]; discriminate.
Qed.
Lemma unprefixed_derived n : In n derived_names -> unprefixed n.
Proof.
  cbn. intros h. destruct h as [<-|[<-|[<-|[<-|[<-|[<-|[<-|[]]]]]]]].
  all: try (left; eexists; reflexivity). all: right; try (right; cbn; tauto).
  all: left; eexists; eexists; split; [reflexivity|]; cbn; intros [h|[h|[h|[h|[h|[]]]]]]; discriminate.
Qed.
Lemma unprefixed_admissible n : unprefixed n -> admissible n.
Proof.
  intros [h|[h|h]]; [left; exact h|right; left; exact h|]. cbn in h.
  destruct h as [<-|[<-|[<-|[<-|[]]]]].
  1-3: right; right; left; cbn; tauto.
  right. right. right. exists "k"%char, "g". repeat split; cbn; tauto.
Qed.

Lemma reduce_unprefixed_names ct cb top bot t b (f : R) : adm_half top -> adm_half bot ->
  reduce ct cb top bot = Ok (t, b, f) -> unprefixed_half t /\ unprefixed_half b.
Proof.
  intros h1 h2 h. unfold reduce in h.
  destruct (prefixes_ok si top bot coherent_si h1 h2) as [t1 [b1 [g [e [_ [_ [u1 u2]]]]]]]. rewrite e in h. cbn [bind] in h.
  destruct (reduce_tail ct cb t1 b1) as [[t2 b2]|] eqn:e2; cbn [bind fst snd] in h; [|discriminate].
  injection h as <- <- _.
  exact (reduce_tail_names unprefixed unprefixed_core unprefixed_derived ct cb t1 b1 t2 b2 e2 u1 u2).
Qed.
