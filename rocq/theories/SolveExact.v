(** * SolveExact: the dispatch of solvable_for for any order of keywords *)
From Coq Require Import String Ascii List Arith Bool Lia Permutation.
From Verif Require Import Py Solve SolveSpec SolveFacts.
Import ListNotations.
Local Open Scope string_scope.
Local Open Scope list_scope.

Section Any.
Context {V : Type}.
Notation arg := (arg V).
Variables (sg : sig V) (ds args : list arg) (kw : list (string * arg)).
Hypothesis hr : regular sg ds.
Hypothesis ha : accepted sg ds args kw.
Notation names := (s_args sg).
Notation a := (List.length args).
Notation L := (skipn a names).
Notation val := (val_of sg kw).

Lemma names_split : names = firstn a names ++ L.
Proof. symmetry. apply firstn_skipn. Qed.
Lemma L_names p : In p L -> In p names.
Proof. intro h. rewrite names_split. apply in_or_app. auto. Qed.
Lemma sf_not_L : ~ In "solving_for" L.
Proof. intro h. apply (rg_solving _ _ hr). apply L_names, h. Qed.
Lemma get_kw s p : In p L -> dict_get (kw ++ [("solving_for", s)]) p = dict_get kw p.
Proof.
  intro hp. assert (hps : p <> "solving_for") by (intros ->; apply sf_not_L, hp). clear - hps.
  induction kw as [|[q v] l IH].
  - cbn [app dict_get]. destruct (String.eqb "solving_for" p) eqn:e; [apply String.eqb_eq in e; congruence|reflexivity].
  - cbn [app dict_get]. rewrite IH. reflexivity.
Qed.
Lemma default_L p : In p L -> ~ In p (map fst kw) -> exists v, default_of sg p = Some v.
Proof.
  intros hp hk. apply In_nth_error in hp. destruct hp as [i hi]. rewrite nth_error_skipn in hi.
  pose proof (ac_rest _ _ _ _ ha _ _ hi ltac:(lia) hk) as hl. pose proof (rg_length _ _ hr) as hd.
  assert (hn : a + i < List.length names) by (apply nth_error_Some; congruence).
  destruct (nth_error ds (a + i + List.length ds - List.length names)) as [v|] eqn:e.
  - exists v. apply (default_iff sg ds hr). eexists _, _. split; [exact hi|]. split; [|exact e]. lia.
  - apply nth_error_None in e. lia.
Qed.
Lemma bind_L s p : In p L -> bind_rest sg (kw ++ [("solving_for", s)]) p = Ok (p, val p).
Proof.
  intro hp. unfold bind_rest, val_of. rewrite (get_kw s p hp). destruct (dict_get kw p) as [v|] eqn:e; [reflexivity|].
  destruct (default_L p hp) as [v hv]; [|rewrite hv; reflexivity].
  intro hk. apply in_map_iff in hk. destruct hk as [[q w] [eq hk]]. cbn in eq. subst q.
  rewrite (dict_some _ _ _ (ac_once _ _ _ _ ha) hk) in e. discriminate.
Qed.
Definition any_env : list (string * arg) := combine (firstn a names) args ++ map (fun p => (p, val p)) L.
Lemma bind_any s : bind_call sg args (kw ++ [("solving_for", s)]) = Ok (any_env, [("solving_for", s)]).
Proof.
  pose proof (ac_most _ _ _ _ ha) as hm. unfold bind_call. rewrite (proj2 (Nat.ltb_ge _ _)) by lia.
  assert (e : existsb (fun k => mem_str (fst k) (firstn a names)) (kw ++ [("solving_for", s)]) = false).
  { apply Bool.not_true_iff_false. intro h. apply existsb_exists in h. destruct h as [[q w] [hq hm']]. cbn in hm'. apply mem_str_iff in hm'.
    apply in_app_or in hq. destruct hq as [hq|[hq|[]]].
    - apply (in_map fst) in hq. apply (ac_names _ _ _ _ ha) in hq. pose proof (rg_names _ _ hr) as hn. rewrite names_split in hn.
      clear - hn hq hm'. cbn in hq. revert hn hm'. generalize (firstn a names). induction l as [|x l IH]; intros hn hm'; [destruct hm'|].
      cbn in hn. inversion hn as [|y m h1 h2]; subst. destruct hm' as [->|hm']; [apply h1, in_or_app; auto|exact (IH h2 hm')].
    - injection hq as <- _. apply (rg_solving _ _ hr). rewrite names_split. apply in_or_app. auto. }
  rewrite e, (rg_kw _ _ hr). cbn [negb andb].
  assert (ex : filter (fun k => negb (mem_str (fst k) names)) (kw ++ [("solving_for", s)]) = [("solving_for", s)]).
  { rewrite filter_app. assert (e1 : filter (fun k => negb (mem_str (fst k) names)) kw = nil).
    { pose proof (ac_names _ _ _ _ ha) as hi. clear - hi. induction kw as [|[q w] l IH]; [reflexivity|]. cbn.
      rewrite (proj2 (mem_str_iff q names)); [cbn; apply IH; intros x hx; apply hi; right; exact hx|].
      assert (hq : In q (skipn a names)) by (apply hi; left; reflexivity). rewrite <- (firstn_skipn a names). apply in_or_app. auto. }
    rewrite e1. cbn. rewrite (proj2 (mem_str_no "solving_for" names) (rg_solving _ _ hr)). reflexivity. }
  rewrite ex.
  assert (em : forall l, incl l L -> mapM (bind_rest sg (kw ++ [("solving_for", s)])) l = Ok (map (fun p => (p, val p)) l)).
  { induction l as [|x l IH]; intro hi; [reflexivity|]. cbn [mapM map]. rewrite (bind_L s x) by (apply hi; left; reflexivity).
    cbn [bind]. rewrite IH by (intros y hy; apply hi; right; exact hy). reflexivity. }
  rewrite (em L) by (intros x hx; exact hx). reflexivity.
Qed.
Lemma any_gives p v : In (p, v) any_env <-> gives sg args kw p v.
Proof.
  pose proof (ac_once _ _ _ _ ha) as hnd. unfold any_env. rewrite in_app_iff. split.
  - intros [h|h].
    + apply In_nth_error in h. destruct h as [i h]. apply nth_combine in h. destruct h as [h1 h2].
      apply (by_position _ _ _ i); [|exact h2]. rewrite nth_error_firstn in h1; [exact h1|]. apply nth_error_Some. congruence.
    + apply in_map_iff in h. destruct h as [q [e hq]]. injection e as -> ev. pose proof (bind_L ANone p hq) as hb. unfold bind_rest in hb. rewrite (get_kw _ p hq) in hb.
      apply In_nth_error in hq. destruct hq as [i hi]. rewrite nth_error_skipn in hi.
      destruct (dict_get kw p) as [w|] eqn:ek.
      * injection hb as hb. rewrite ev in hb. subst w. apply (by_keyword _ _ _ (a + i)); [exact hi|lia|]. exact (dict_in _ _ _ ek).
      * destruct (default_of sg p) as [w|] eqn:ed; [|discriminate]. injection hb as hb. rewrite ev in hb. subst w.
        apply (default_iff sg ds hr) in ed. destruct ed as [i' [j [h1 [h2 h3]]]]. pose proof (nodup_nth _ _ _ _ (rg_names _ _ hr) hi h1) as <-.
        apply (by_default _ _ _ (a + i) j ds); [exact hi|lia| |exact (rg_defaults _ _ hr)|exact h2|exact h3].
        intro hk. apply in_map_iff in hk. destruct hk as [[q w] [e hk]]. cbn in e. subst q. rewrite (dict_some _ _ _ hnd hk) in ek. discriminate.
  - intro h. inversion h as [i q w h1 h2|i q w h1 h2 h3|i j ds' q w h1 h2 h3 h4 h5 h6]; subst.
    + left. apply (nth_error_In _ i), nth_combine. split; [|exact h2]. rewrite nth_error_firstn; [exact h1|]. apply nth_error_Some. congruence.
    + right. apply in_map_iff. exists p. split.
      * unfold val_of. rewrite (dict_some _ p v hnd h3). reflexivity.
      * apply (ac_names _ _ _ _ ha). apply (in_map fst) in h3. exact h3.
    + right. apply in_map_iff. exists p. split.
      * unfold val_of. rewrite (dict_none _ p h3). rewrite (rg_defaults _ _ hr) in h4. injection h4 as <-.
        rewrite (proj2 (default_iff sg ds hr p v)); [reflexivity|]. exists i, j. auto.
      * apply (nth_error_In _ (i - a)). rewrite nth_error_skipn. replace (a + (i - a)) with i by lia. exact h1.
Qed.

Notation d := (combine names (args ++ map snd kw ++ ds)).
Lemma taken_iff p : taken sg ds args kw p <-> In (p, ANone) d.
Proof.
  split.
  - intros [i [h1 h2]]. apply (nth_error_In _ i), nth_combine. auto.
  - intro h. apply In_nth_error in h. destruct h as [i h]. apply nth_combine in h. exists i. exact h.
Qed.
Lemma any_dispatch solvable unknowns :
  ((exists p, taken sg ds args kw p /\ ~ In p solvable) -> wrapper solvable unknowns sg args kw = Raise ESolutionNotSupported) /\
  ((forall p, taken sg ds args kw p -> In p solvable) -> exists ms, NoDup ms /\ (forall p, In p ms <-> taken sg ds args kw p) /\
    (unknowns < List.length ms -> wrapper solvable unknowns sg args kw = Raise EUnsolvableEquation) /\
    (List.length ms < unknowns -> wrapper solvable unknowns sg args kw = Raise EOverSpecifiedProblem) /\
    (List.length ms = unknowns -> exists env s, wrapper solvable unknowns sg args kw = Ok (env, [("solving_for", s)]) /\
       (forall p v, In (p, v) env <-> gives sg args kw p v) /\
       (forall p, ms = [p] -> s = AName p) /\ (unknowns <> 1 -> s = ANames ms))).
Proof.
  unfold wrapper. rewrite (rg_defaults _ _ hr). split.
  - intros [p [hp hn]]. apply taken_iff in hp.
    rewrite (proj2 (existsb_exists _ _)); [reflexivity|]. exists (p, ANone). split; [exact hp|]. cbn. rewrite (proj2 (mem_str_no _ _) hn). reflexivity.
  - intro hall. exists (none_names d). split; [apply combine_nodup, (rg_names _ _ hr)|].
    split; [intro p; rewrite none_names_in, taken_iff; reflexivity|].
    assert (e : existsb (fun x => negb (mem_str (fst x) solvable) && is_none (snd x)) d = false).
    { apply Bool.not_true_iff_false. intro h. apply existsb_exists in h. destruct h as [[p v] [h1 h2]]. cbn in h2. apply andb_true_iff in h2.
      destruct h2 as [h2 h3]. destruct v; cbn in h3; try discriminate. apply negb_true_iff, mem_str_no in h2. apply h2, hall, taken_iff, h1. }
    rewrite e. assert (hc : count_none d = List.length (none_names d)) by (unfold count_none, none_names; rewrite map_length; reflexivity).
    rewrite hc. split; [|split].
    + intro h. rewrite (proj2 (Nat.ltb_lt _ _) h). reflexivity.
    + intro h. rewrite (proj2 (Nat.ltb_ge _ _)) by lia. rewrite (proj2 (Nat.ltb_lt _ _) h). reflexivity.
    + intro h. rewrite (proj2 (Nat.ltb_ge _ _)) by lia. rewrite (proj2 (Nat.ltb_ge _ _)) by lia.
      assert (hs : mem_str "solving_for" (map fst kw) = false).
      { apply mem_str_no. intro hi. apply sf_not_L. apply (ac_names _ _ _ _ ha), hi. }
      unfold solving_for. destruct (Nat.eqb unknowns 1) eqn:eu.
      * apply Nat.eqb_eq in eu. destruct (rev names) as [|x l] eqn:er.
        { exfalso. assert (en : names = nil) by (rewrite <- (rev_involutive names), er; reflexivity). rewrite en in h. cbn in h. lia. }
        cbn [bind]. rewrite hs, bind_any. eexists _, _. split; [reflexivity|]. split; [exact any_gives|].
        split; [|congruence]. intros p hp. f_equal. apply last_none. exact hp.
      * apply Nat.eqb_neq in eu. cbn [bind]. rewrite hs, bind_any. eexists _, _. split; [reflexivity|]. split; [exact any_gives|].
        split; [|reflexivity]. intros p hp. rewrite hp in h. cbn in h. congruence.
Qed.

(** As many parameters are taken to be missing as are. *)
Lemma any_count ms : NoDup ms -> (forall p, In p ms <-> taken sg ds args kw p) ->
  exists ms', NoDup ms' /\ (forall p, In p ms' <-> missing sg args kw p) /\ List.length ms' = List.length ms.
Proof.
  intros hn hm. destruct (any_dispatch names (List.length ms)) as [_ h]. destruct h as [ms2 [h1 [h2 [_ [_ h5]]]]].
  - intros p [i [hi _]]. exact (nth_error_In _ _ hi).
  - assert (el : List.length ms2 = List.length ms).
    { apply Nat.le_antisymm; apply NoDup_incl_length; try assumption; intros p hp; [apply hm, h2, hp|apply h2, hm, hp]. }
    destruct (h5 el) as [env [s [hw _]]].
    destruct (runs_counted sg ds args kw hr names (List.length ms) _ (ac_once _ _ _ _ ha) (fun p hp => L_names p (ac_names _ _ _ _ ha p hp)) hw) as [ms' [k1 [k2 k3]]].
    exists ms'. auto.
Qed.
(** One parameter missing: it is solved for exactly if it is the one counted off. *)
Lemma any_right solvable p : (forall q, missing sg args kw q <-> q = p) -> In p solvable ->
  ((exists env, wrapper solvable 1 sg args kw = Ok (env, [("solving_for", AName p)])) <-> taken sg ds args kw p).
Proof.
  intros hp hs. set (ms := none_names d).
  assert (hn : NoDup ms) by (apply combine_nodup, (rg_names _ _ hr)).
  assert (hm : forall q, In q ms <-> taken sg ds args kw q) by (intro q; unfold ms; rewrite none_names_in, taken_iff; reflexivity).
  destruct (any_count ms hn hm) as [ms' [k1 [k2 k3]]].
  assert (el : List.length ms = 1).
  { rewrite <- k3. assert (e1 : List.length ms' <= List.length [p]) by (apply NoDup_incl_length; [exact k1|intros q hq; apply k2, hp in hq; left; congruence]).
    assert (e2 : List.length [p] <= List.length ms').
    { apply NoDup_incl_length; [repeat constructor; intros []|]. intros q [<-|[]]. apply k2, hp. reflexivity. }
    cbn in *. lia. }
  destruct ms as [|q [|q' l]] eqn:ems; cbn in el; try lia.
  destruct (any_dispatch solvable 1) as [d1 d2].
  destruct (in_dec string_dec q solvable) as [hq|hq].
  - destruct d2 as [ms2 [h1 [h2 [_ [_ h5]]]]].
    + intros r hr'. apply hm in hr'. destruct hr' as [<-|[]]. exact hq.
    + assert (e2 : ms2 = [q]).
      { assert (hl : List.length ms2 <= List.length [q]).
        { apply NoDup_incl_length; [exact h1|]. intros r hr'. apply h2, hm in hr'. exact hr'. }
        assert (hi : In q ms2) by (apply h2, hm; left; reflexivity).
        destruct ms2 as [|x [|y m]]; cbn in hl; try lia; [destruct hi|]. destruct hi as [->|[]]. reflexivity. }
      subst ms2. destruct (h5 eq_refl) as [env [s [hw [_ [hs' _]]]]]. rewrite (hs' q eq_refl) in hw. split.
      * intros [env' hw']. rewrite hw in hw'. injection hw' as _ <-. apply hm. left. reflexivity.
      * intro ht. apply hm in ht. destruct ht as [<-|[]]. eauto.
  - assert (hr' : wrapper solvable 1 sg args kw = Raise ESolutionNotSupported) by (apply d1; exists q; split; [apply hm; left; reflexivity|exact hq]).
    split.
    + intros [env hw]. rewrite hr' in hw. discriminate.
    + intro ht. apply hm in ht. destruct ht as [<-|[]]. contradiction.
Qed.
End Any.

(** planar_heat(k, T1, T2, q=7, A=5, thickness=None). *)
Lemma any_case : accepted (planar_heat_sig nat) [ANone] [AVal 1; AVal 2; AVal 3] [("q", AVal 7); ("A", AVal 5); ("thickness", ANone)] /\
  taken (planar_heat_sig nat) [ANone] [AVal 1; AVal 2; AVal 3] [("q", AVal 7); ("A", AVal 5); ("thickness", ANone)] "q" /\
  accepted (planar_heat_sig nat) [ANone] [AVal 1; AVal 2; AVal 3] [("q", AVal 7); ("thickness", ANone); ("A", AVal 5)] /\
  taken (planar_heat_sig nat) [ANone] [AVal 1; AVal 2; AVal 3] [("q", AVal 7); ("thickness", ANone); ("A", AVal 5)] "thickness".
Proof.
  assert (k : forall l, NoDup (map fst l) -> incl (map fst l) ["A"; "thickness"; "q"] -> List.length l = 3 ->
    accepted (planar_heat_sig nat) [ANone] [AVal 1; AVal 2; AVal 3] l).
  { intros l h1 h2 h3. constructor; cbn.
    - lia.
    - exact h1.
    - exact h2.
    - intros i p hi ho hk. exfalso. apply hk. assert (hp : In p ["A"; "thickness"; "q"]).
      { destruct i as [|[|[|i]]]; try lia. cbn in hi. exact (nth_error_In _ _ hi). }
      assert (h4 : incl ["A"; "thickness"; "q"] (map fst l)).
      { apply NoDup_length_incl; [exact h1|rewrite map_length; cbn; lia|exact h2]. }
      exact (h4 p hp). }
  split; [|split; [|split]].
  - apply k; [repeat constructor; cbn; intuition discriminate|intros p hp; cbn in *; tauto|reflexivity].
  - exists 5. split; reflexivity.
  - apply k; [repeat constructor; cbn; intuition discriminate|intros p hp; cbn in *; tauto|reflexivity].
  - exists 4. split; reflexivity.
Qed.
