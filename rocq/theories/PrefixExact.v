(** * PrefixExact: prefix removal for every name *)
From Coq Require Import String Ascii List ZArith QArith Qcanon Bool Reals Qreals Lia Lra.
From Verif Require Import Py Num UnitsData UnitsStruct Units NumFacts Spec SpecFacts StructFacts CombineFacts CancelFacts
  ExpandFacts PrefixFacts SimplifyFacts OpFacts NamesFacts ClosureFacts FactorFacts PrefixSpec.
Import ListNotations.
Local Open Scope string_scope.
Local Open Scope list_scope.
Local Open Scope R_scope.

Lemma root_split x p y : split_prefix x = Ok (p, y) -> y = BU (root (bname x)) (bexp x).
Proof.
  unfold split_prefix. destruct x as [n e]. cbn [bname bexp].
  destruct (String.eqb n "kg") eqn:k.
  - apply String.eqb_eq in k. subst. intro h. injection h as _ <-. reflexivity.
  - apply String.eqb_neq in k. unfold get_prefix. destruct n as [|c rest]; [discriminate|].
    destruct rest as [|d r].
    { cbn. intro h. injection h as _ <-. reflexivity. }
    cbn [String.eqb orb]. unfold root.
    destruct (in_dec string_dec (String c (String d r)) ["min"; "cP"; "mol"; "kg"]) as [i|i].
    + replace (mem_str (String c (String d r)) ["min"; "cP"; "mol"]) with true.
      2:{ symmetry. apply mem_str_In. cbn in *. intuition congruence. }
      rewrite orb_true_r. cbn [bind snd]. intro h. injection h as _ <-. reflexivity.
    + replace (mem_str (String c (String d r)) ["min"; "cP"; "mol"]) with false.
      2:{ symmetry. apply not_true_iff_false. intro m. apply mem_str_In in m. apply i. cbn in *. tauto. }
      rewrite orb_false_r.
      destruct (in_dec ascii_dec c ["m"; "c"; "d"; "k"; "M"]%char) as [j|j].
      * replace (mem_str (String c EmptyString) ["m"; "c"; "d"; "k"; "M"]) with true.
        2:{ symmetry. apply mem_str_In. cbn in *. intuition congruence. }
        cbn [negb bind snd]. intro h. injection h as _ <-. reflexivity.
      * replace (mem_str (String c EmptyString) ["m"; "c"; "d"; "k"; "M"]) with false.
        2:{ symmetry. apply not_true_iff_false. intro m. apply mem_str_In in m. apply j. cbn in *. intuition congruence. }
        cbn [negb bind snd]. intro h. injection h as _ <-. reflexivity.
Qed.

Lemma mapM_rooted l ps : mapM split_prefix l = Ok ps -> map snd ps = rooted l.
Proof.
  revert ps. induction l as [|x l IH]; intros ps h.
  - injection h as <-. reflexivity.
  - cbn [mapM] in h. apply bind_ok in h. destruct h as [[p y] [e h]]. apply bind_ok in h. destruct h as [ps' [e' h]].
    injection h as <-. cbn [map snd rooted]. rewrite (IH _ e'). apply root_split in e. subst. reflexivity.
Qed.

Lemma mapM_empty l : (exists x, In x l /\ bname x = EmptyString) -> mapM split_prefix l = Raise EIndexError.
Proof.
  induction l as [|x l IH]; intros [y [hy e]]; [contradiction|]. cbn [mapM].
  destruct (string_dec (bname x) EmptyString) as [z|z].
  - unfold split_prefix. rewrite z. reflexivity.
  - assert (exists p, split_prefix x = Ok p) as [p ep].
    { unfold split_prefix. destruct (String.eqb (bname x) "kg"); [eexists; reflexivity|].
      unfold get_prefix. destruct (bname x) as [|c r]; [congruence|].
      destruct (_ || _)%bool; eexists; reflexivity. }
    rewrite ep. cbn [bind]. rewrite IH; [reflexivity|].
    destruct hy as [->|hy]; [congruence|]. eauto.
Qed.

Lemma prefix_actual top bot :
  ((forall x, In x (top ++ bot) -> bname x <> EmptyString) ->
     deconstruct_unit_prefixes top bot = Ok (rooted top, rooted bot, msize pscale top bot)) /\
  ((exists x, In x (top ++ bot) /\ bname x = EmptyString) ->
     deconstruct_unit_prefixes (T := R) top bot = Raise EIndexError).
Proof.
  split.
  - intro h. destruct (prefixes_total top bot h) as [t [b e]]. rewrite e. unfold deconstruct_unit_prefixes in e.
    apply bind_ok in e. destruct e as [tp [e1 e]]. apply bind_ok in e. destruct e as [bp [e2 e]].
    apply bind_ok in e. destruct e as [f1 [e3 e]]. apply bind_ok in e. destruct e as [f2 [e4 e]].
    injection e as <- <- _. rewrite (mapM_rooted _ _ e1), (mapM_rooted _ _ e2). reflexivity.
  - intros [x [hx e]]. apply in_app_or in hx. unfold deconstruct_unit_prefixes.
    destruct (mapM split_prefix top) as [tp|er] eqn:e1.
    + cbn [bind]. destruct hx as [hx|hx].
      * rewrite mapM_empty in e1 by eauto. discriminate.
      * rewrite mapM_empty by eauto. reflexivity.
    + cbn [bind]. f_equal.
      assert (k : forall l er, mapM split_prefix l = Raise er -> er = EIndexError).
      { clear. induction l as [|x l IH]; intros er h; [discriminate|]. cbn [mapM] in h.
        destruct (split_prefix x) as [p|e0] eqn:es.
        - cbn [bind] in h. destruct (mapM split_prefix l) eqn:el; cbn [bind] in h; [discriminate|].
          injection h as <-. apply IH. reflexivity.
        - cbn [bind] in h. injection h as <-. unfold split_prefix in es.
          destruct (String.eqb (bname x) "kg"); [discriminate|]. unfold get_prefix in es.
          destruct (bname x) as [|c r]; [cbn in es; congruence|].
          destruct (_ || _)%bool; discriminate. }
      exact (k _ _ e1).
Qed.

Lemma usize_split w l : positive w -> usize pscale l * usize w (rooted l) = usize (as_split w) l.
Proof.
  intro pw. induction l as [|x l IH]; [cbn; lra|]. cbn [rooted map usize bname bexp]. fold (rooted l). rewrite <- IH.
  unfold as_split at 1. rewrite <- Rpower_mult_distr by (apply pscale_pos || apply pw). ring.
Qed.
Lemma prefix_denotes w top bot : positive w ->
  msize pscale top bot * msize w (rooted top) (rooted bot) = msize (as_split w) top bot.
Proof.
  intro pw. unfold msize. rewrite <- !usize_split by exact pw.
  pose proof (usize_pos pscale bot). pose proof (usize_pos w (rooted bot)). field. lra.
Qed.

Lemma Rpower_base_inj x y z : 0 < x -> 0 < y -> z <> 0 -> Rpower x z = Rpower y z -> x = y.
Proof.
  intros hx hy hz h. unfold Rpower in h. apply exp_inv in h. apply Rmult_eq_reg_l in h; [|exact hz]. apply ln_inv; assumption.
Qed.
Lemma prefix_one w x : positive w -> bname x <> EmptyString -> exists t f,
  deconstruct_unit_prefixes [x] nil = Ok (t, nil, f) /\
  (f * msize w t nil = msize w [x] nil <-> regular w (bname x) \/ ev (bexp x) = 0%Qc).
Proof.
  intros pw hn. exists (rooted [x]), (msize pscale [x] nil). split.
  - apply (proj1 (prefix_actual [x] nil)). intros y [<-|[]]. exact hn.
  - change (msize w (rooted [x]) nil) with (msize w (rooted [x]) (rooted nil)). rewrite prefix_denotes by exact pw.
    unfold msize. cbn [usize]. unfold regular.
    assert (ps : 0 < as_split w (bname x)) by (apply Rmult_lt_0_compat; [apply pscale_pos|apply pw]).
    fold (as_split w (bname x)). split.
    + intro h. destruct (Qc_eq_dec (ev (bexp x)) 0%Qc) as [z|z]; [right; exact z|left].
      apply (Rpower_base_inj _ _ (QcR (ev (bexp x)))); [apply pw|exact ps| |].
      2:{ change (pscale (bname x) * w (root (bname x))) with (as_split w (bname x)). set (a := Rpower (as_split w (bname x)) _) in *. set (b := Rpower (w (bname x)) _) in *. lra. }
      intro q. apply z. apply QcR_inj. rewrite q. unfold QcR, Q2R. cbn. lra.
    + intros [h|h].
      * rewrite <- h. reflexivity.
      * rewrite h. replace (QcR 0%Qc) with 0 by (unfold QcR, Q2R; cbn; lra). rewrite !Rpower_O by (assumption || apply pw). reflexivity.
Qed.
Lemma prefix_all w top bot : (forall x, In x (top ++ bot) -> regular w (bname x)) -> 
  msize (as_split w) top bot = msize w top bot.
Proof.
  intro h. assert (k : forall l, (forall x, In x l -> regular w (bname x)) -> usize (as_split w) l = usize w l).
  { clear. induction l as [|x l IH]; intro h; [reflexivity|]. cbn [usize]. rewrite IH by (intros; apply h; right; assumption).
    unfold as_split. rewrite <- (h x (or_introl eq_refl)). reflexivity. }
  unfold msize. rewrite !k; [reflexivity|intros; apply h, in_or_app; auto|intros; apply h, in_or_app; auto].
Qed.
Lemma roots_case : rooted [BU "mile" (eint 1); BU "kJ" (eint 2); BU "kg" (eint 1); BU "um" (eint 1); BU "day" (eint 1)]
  = [BU "ile" (eint 1); BU "J" (eint 2); BU "kg" (eint 1); BU "um" (eint 1); BU "ay" (eint 1)]
  /\ regular si "kJ" /\ regular si "kg".
Proof.
  split; [reflexivity|]. pose proof (coherent_si) as c.
  split; unfold regular.
  - change (root "kJ") with "J". rewrite (size_is_si "kJ" 1000 eq_refl), (size_is_si "J" 1 eq_refl).
    unfold pscale. cbn. unfold Q2R. cbn. lra.
  - change (root "kg") with "kg". unfold pscale. cbn. lra.
Qed.
