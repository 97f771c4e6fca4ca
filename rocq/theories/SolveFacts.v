(** * SolveFacts: the dispatch of solvable_for *)
From Coq Require Import String Ascii List Arith Bool Lia Permutation.
From Verif Require Import Py Solve SolveSpec.
Import ListNotations.
Local Open Scope string_scope.
Local Open Scope list_scope.

Lemma mem_str_iff s l : mem_str s l = true <-> In s l.
Proof.
  unfold mem_str. rewrite existsb_exists. split.
  - intros [x [hx e]]. apply String.eqb_eq in e. subst. exact hx.
  - intro h. exists s. split; [exact h|apply String.eqb_refl].
Qed.
Lemma mem_str_no s l : mem_str s l = false <-> ~ In s l.
Proof. rewrite <- mem_str_iff. destruct (mem_str s l); split; congruence. Qed.

(** ** Lists *)
Lemma nth_combine {A B} (l : list A) (m : list B) i x y :
  nth_error (combine l m) i = Some (x, y) <-> nth_error l i = Some x /\ nth_error m i = Some y.
Proof.
  revert m i. induction l as [|a l IH]; intros [|b m] [|i]; cbn; try (split; [discriminate|intros [h1 h2]; discriminate]).
  - split; [intro h; injection h as <- <-; auto|intros [h1 h2]; congruence].
  - apply IH.
Qed.
Lemma nth_error_ext {A} (l m : list A) : List.length l = List.length m -> (forall i x, nth_error l i = Some x -> nth_error m i = Some x) -> l = m.
Proof.
  revert m. induction l as [|a l IH]; intros [|b m] hl h; cbn in hl; try discriminate; [reflexivity|].
  pose proof (h 0 a eq_refl) as h0. cbn in h0. injection h0 as ->. f_equal. apply IH; [lia|]. intros i x hx. exact (h (S i) x hx).
Qed.
Lemma nth_error_skipn {A} (l : list A) k i : nth_error (skipn k l) i = nth_error l (k + i).
Proof.
  revert l. induction k as [|k IH]; intro l; cbn; [reflexivity|]. destruct l as [|a l]; cbn; [destruct i; reflexivity|]. apply IH.
Qed.
Lemma nth_error_firstn {A} (l : list A) k i : i < k -> nth_error (firstn k l) i = nth_error l i.
Proof.
  revert l i. induction k as [|k IH]; intros l i h; [lia|]. destruct l as [|a l]; cbn; [reflexivity|]. destruct i as [|i]; cbn; [reflexivity|].
  apply IH. lia.
Qed.
Lemma nodup_nth {A} (l : list A) i j x : NoDup l -> nth_error l i = Some x -> nth_error l j = Some x -> i = j.
Proof.
  intros h hi hj. apply (proj1 (NoDup_nth_error l) h).
  - apply nth_error_Some. congruence.
  - congruence.
Qed.
Lemma dict_none {B} (d : list (string * B)) k : ~ In k (map fst d) -> dict_get d k = None.
Proof.
  induction d as [|[k' v] d IH]; cbn; intro h; [reflexivity|]. rewrite IH by tauto.
  destruct (String.eqb k' k) eqn:e; [|reflexivity]. apply String.eqb_eq in e. tauto.
Qed.
Lemma dict_some {B} (d : list (string * B)) k v : NoDup (map fst d) -> In (k, v) d -> dict_get d k = Some v.
Proof.
  induction d as [|[k' v'] d IH]; cbn; intros h hi; [destruct hi|]. inversion h as [|a b hn hd]; subst.
  destruct hi as [e|hi].
  - injection e as <- <-. rewrite dict_none by exact hn. rewrite String.eqb_refl. reflexivity.
  - rewrite (IH hd hi). reflexivity.
Qed.
Lemma dict_in {B} (d : list (string * B)) k v : dict_get d k = Some v -> In (k, v) d.
Proof.
  induction d as [|[k' v'] d IH]; cbn; [discriminate|]. destruct (dict_get d k) as [w|]; [intro h; right; apply IH, h|].
  destruct (String.eqb k' k) eqn:e; [|discriminate]. apply String.eqb_eq in e. intro h. injection h as <-. left. congruence.
Qed.
Lemma mapM_combine {A B} (f : A -> res (A * B)) (l : list A) (m : list B) : List.length l = List.length m ->
  (forall i x y, nth_error l i = Some x -> nth_error m i = Some y -> f x = Ok (x, y)) -> mapM f l = Ok (combine l m).
Proof.
  revert m. induction l as [|a l IH]; intros [|b m] hl h; cbn in hl; try discriminate; [reflexivity|].
  cbn. rewrite (h 0 a b eq_refl eq_refl). cbn [bind]. rewrite (IH m) by (try lia; intros i x y hx hy; exact (h (S i) x y hx hy)). reflexivity.
Qed.

Lemma nodup_left {A} (l m : list A) : NoDup (l ++ m) -> NoDup l.
Proof.
  induction l as [|x l IH]; cbn; intro h; [constructor|]. inversion h as [|b c hx hl]; subst. constructor; [|apply IH, hl].
  intro hi. apply hx, in_or_app. left. exact hi.
Qed.
Lemma nodup_right {A} (l m : list A) : NoDup (l ++ m) -> NoDup m.
Proof. induction l as [|x l IH]; cbn; intro h; [exact h|]. inversion h; subst. apply IH. assumption. Qed.

Section Facts.
Context {V : Type}.
Notation arg := (arg V).
Variables (sg : sig V) (ds args : list arg) (kw : list (string * arg)).
Hypothesis hr : regular sg ds.
Notation names := (s_args sg).

Section InOrder.
Hypothesis ho : in_order sg ds args kw.

Let a := List.length args.
Let k := List.length kw.
Let n := List.length names.
Let d := List.length ds.

(** The value every parameter receives. *)
Definition vals : list arg := args ++ map snd kw ++ skipn (a + k + d - n) ds.
Lemma vals_length : List.length vals = n.
Proof.
  unfold vals. rewrite !app_length, map_length, skipn_length. pose proof (io_most _ _ _ _ ho). pose proof (io_least _ _ _ _ ho). pose proof (rg_length _ _ hr). subst a k n d. lia.
Qed.
Lemma zip_vals : combine names (args ++ map snd kw ++ ds) = combine names vals.
Proof.
  rewrite (combine_firstn_l names (args ++ map snd kw ++ ds)). f_equal. fold n.
  pose proof (io_most _ _ _ _ ho) as h1. pose proof (io_least _ _ _ _ ho) as h2. pose proof (rg_length _ _ hr) as h3.
  change (List.length args) with a in h1, h2. change (List.length kw) with k in h1, h2. change (List.length names) with n in h1, h2, h3.
  change (List.length ds) with d in h2, h3.
  rewrite firstn_app, firstn_app. rewrite firstn_all2 by (subst a; lia).
  rewrite firstn_all2 by (rewrite map_length; subst a k; lia). unfold vals. do 2 f_equal. rewrite map_length. change (List.length args) with a. change (List.length kw) with k.
  assert (hl : List.length (firstn (n - a - k) ds) = List.length (skipn (a + k + d - n) ds)).
  { rewrite firstn_length, skipn_length. change (List.length ds) with d. lia. }
  apply nth_error_ext; [exact hl|]. intros i x hx.
  assert (hi : i < List.length (skipn (a + k + d - n) ds)) by (rewrite <- hl; apply nth_error_Some; congruence).
  destruct (nth_error (skipn (a + k + d - n) ds) i) as [y|] eqn:hy; [|apply nth_error_None in hy; lia]. f_equal.
  apply (rg_same _ _ hr).
  - rewrite nth_error_skipn in hy. exact (nth_error_In _ _ hy).
  - apply nth_error_In in hx. revert hx. generalize (n - a - k). intros m hx. rewrite <- (firstn_skipn m ds). apply in_or_app. left. exact hx.
Qed.
Lemma nth_vals i v : nth_error vals i = Some v <->
  (nth_error args i = Some v) \/ (exists j p, i = a + j /\ nth_error kw j = Some (p, v)) \/
  (exists j, a + k <= i /\ i + d = n + j /\ nth_error ds j = Some v).
Proof.
  pose proof (io_most _ _ _ _ ho) as h1. pose proof (io_least _ _ _ _ ho) as h2. pose proof (rg_length _ _ hr) as h3.
  change (List.length args) with a in h1, h2. change (List.length kw) with k in h1, h2. change (List.length names) with n in h1, h2, h3.
  change (List.length ds) with d in h2, h3.
  unfold vals. destruct (le_lt_dec a i) as [hi|hi].
  - rewrite nth_error_app2 by exact hi. change (List.length args) with a.
    destruct (le_lt_dec (a + k) i) as [hj|hj].
    + rewrite nth_error_app2 by (rewrite map_length; change (List.length kw) with k; lia). rewrite map_length, nth_error_skipn. change (List.length kw) with k.
      split.
      * intro h. right. right. exists (a + k + d - n + (i - a - k)). split; [exact hj|]. split; [lia|exact h].
      * intros [h|[[j [p [-> h]]]|[j [_ [e h]]]]].
        -- assert (i < a) by (apply nth_error_Some; congruence). lia.
        -- assert (j < k) by (apply nth_error_Some; congruence). lia.
        -- replace (a + k + d - n + (i - a - k)) with j by lia. exact h.
    + rewrite nth_error_app1 by (rewrite map_length; change (List.length kw) with k; lia). rewrite nth_error_map. split.
      * intro h. right. left. exists (i - a). destruct (nth_error kw (i - a)) as [[p w]|] eqn:e; [|discriminate]. cbn in h. injection h as ->.
        exists p. split; [lia|reflexivity].
      * intros [h|[[j [p [-> h]]]|[j [hc _]]]]; [|replace (a + j - a) with j by lia; rewrite h; reflexivity|lia].
        assert (i < a) by (apply nth_error_Some; congruence). lia.
  - rewrite nth_error_app1 by exact hi. split; [auto|]. intros [h|[[j [p [-> _]]]|[j [hc _]]]]; [exact h|lia|lia].
Qed.
Lemma kw_name j p v : nth_error kw j = Some (p, v) -> nth_error names (a + j) = Some p.
Proof.
  intro h. assert (hj : j < k) by (apply nth_error_Some; congruence).
  assert (e : nth_error (map fst kw) j = Some p) by (rewrite nth_error_map, h; reflexivity).
  rewrite (io_names _ _ _ _ ho), nth_error_firstn, nth_error_skipn in e by exact hj. exact e.
Qed.
Lemma name_kw i p : nth_error names i = Some p -> a <= i -> i < a + k -> exists v, nth_error kw (i - a) = Some (p, v).
Proof.
  intros h h1 h2. destruct (nth_error kw (i - a)) as [[q v]|] eqn:e.
  - pose proof (kw_name _ _ _ e) as hq. replace (a + (i - a)) with i in hq by lia. rewrite h in hq. injection hq as ->. exists v. reflexivity.
  - apply nth_error_None in e. subst k. lia.
Qed.
Lemma kw_nodup : NoDup (map fst kw).
Proof.
  rewrite (io_names _ _ _ _ ho). pose proof (rg_names _ _ hr) as h.
  assert (hs : forall m (l : list string), NoDup l -> NoDup (firstn m l)).
  { intros m l hl. rewrite <- (firstn_skipn m l) in hl. apply nodup_left in hl. exact hl. }
  apply hs. rewrite <- (firstn_skipn (List.length args) names) in h. apply nodup_right in h. exact h.
Qed.
Lemma gives_iff p v : gives sg args kw p v <-> In (p, v) (combine names vals).
Proof.
  split.
  - intro h. inversion h as [i q w h1 h2|i q w h1 h2 h3|i j ds' q w h1 h2 h3 h4 h5 h6]; subst.
    + apply (nth_error_In _ i), nth_combine. split; [exact h1|]. apply nth_vals. left. exact h2.
    + apply In_nth_error in h3. destruct h3 as [j hj]. pose proof (kw_name _ _ _ hj) as hn.
      pose proof (nodup_nth _ _ _ _ (rg_names _ _ hr) h1 hn) as ->. apply (nth_error_In _ (a + j)), nth_combine. split; [exact hn|].
      apply nth_vals. right. left. exists j, p. auto.
    + rewrite (rg_defaults _ _ hr) in h4. injection h4 as <-. apply (nth_error_In _ i), nth_combine. split; [exact h1|].
      apply nth_vals. right. right. exists j. split; [|split; [exact h5|exact h6]].
      destruct (le_lt_dec (a + k) i) as [hc|hc]; [exact hc|]. exfalso. apply h3.
      destruct (name_kw i p h1 h2 hc) as [w hw]. apply nth_error_In in hw. apply (in_map fst) in hw. exact hw.
  - intro h. apply In_nth_error in h. destruct h as [i h]. apply nth_combine in h. destruct h as [h1 h2]. apply nth_vals in h2.
    destruct h2 as [h2|[[j [q [-> h2]]]|[j [h2 [h3 h4]]]]].
    + exact (by_position _ _ _ i _ _ h1 h2).
    + pose proof (kw_name _ _ _ h2) as hn. rewrite h1 in hn. injection hn as <-. apply (by_keyword _ _ _ (a + j)); [exact h1|subst a; lia|].
      exact (nth_error_In _ _ h2).
    + apply (by_default _ _ _ i j ds); [exact h1|subst a; lia| |exact (rg_defaults _ _ hr)|exact h3|exact h4].
      intro hc. apply in_map_iff in hc. destruct hc as [[q w] [e hc]]. cbn in e. subst q. apply In_nth_error in hc. destruct hc as [j' hj'].
      pose proof (kw_name _ _ _ hj') as hn. pose proof (nodup_nth _ _ _ _ (rg_names _ _ hr) h1 hn) as ->.
      assert (j' < k) by (apply nth_error_Some; congruence). lia.
Qed.

Lemma bind_in_order s : bind_call sg args (kw ++ [("solving_for", s)]) = Ok (combine names vals, [("solving_for", s)]).
Proof.
  pose proof (io_most _ _ _ _ ho) as h1. pose proof (io_least _ _ _ _ ho) as h2. pose proof (rg_length _ _ hr) as h3.
  change (List.length args) with a in h1, h2. change (List.length kw) with k in h1, h2. change (List.length names) with n in h1, h2, h3.
  change (List.length ds) with d in h2, h3.
  assert (hin : forall x, In x kw -> In (fst x) names).
  { intros [p v] hx. apply In_nth_error in hx. destruct hx as [j hj]. exact (nth_error_In _ _ (kw_name _ _ _ hj)). }
  unfold bind_call. rewrite (proj2 (Nat.ltb_ge _ _)) by (change (List.length names) with n; change (List.length args) with a; lia).
  assert (e1 : existsb (fun x => mem_str (fst x) (firstn (List.length args) names)) (kw ++ [("solving_for", s)]) = false).
  { apply Bool.not_true_iff_false. intro h. apply existsb_exists in h. destruct h as [[p v] [hx hm]]. apply mem_str_iff in hm. cbn [fst] in hm.
    apply in_app_or in hx. destruct hx as [hx|[hx|[]]].
    - apply In_nth_error in hx. destruct hx as [j hj]. pose proof (kw_name _ _ _ hj) as hn.
      apply In_nth_error in hm. destruct hm as [i hi]. assert (hia : i < List.length (firstn (List.length args) names)) by (apply nth_error_Some; congruence).
      rewrite firstn_length in hia. rewrite nth_error_firstn in hi by lia. pose proof (nodup_nth _ _ _ _ (rg_names _ _ hr) hi hn). subst a. lia.
    - injection hx as <- _. apply (rg_solving _ _ hr). rewrite <- (firstn_skipn (List.length args) names). apply in_or_app. left. exact hm. }
  rewrite e1.
  assert (e2 : filter (fun x => negb (mem_str (fst x) names)) (kw ++ [("solving_for", s)]) = [("solving_for", s)]).
  { rewrite filter_app. cbn [filter fst]. rewrite (proj2 (mem_str_no _ _) (rg_solving _ _ hr)). cbn [negb].
    assert (hf : forall l : list (string * arg), (forall x, In x l -> In (fst x) names) -> filter (fun x => negb (mem_str (fst x) names)) l = nil).
    { clear. induction l as [|x l IH]; intro h; [reflexivity|]. cbn. rewrite (proj2 (mem_str_iff _ _) (h x (or_introl eq_refl))). cbn. apply IH.
      intros y hy. apply h. right. exact hy. }
    rewrite (hf kw hin). reflexivity. }
  rewrite e2, (rg_kw _ _ hr). cbn [negb andb].
  assert (hnd : NoDup (map fst (kw ++ [("solving_for", s)]))).
  { rewrite map_app. cbn [map fst]. apply Permutation_NoDup with (l := "solving_for" :: map fst kw).
    - apply Permutation_cons_append.
    - constructor; [|exact kw_nodup]. intro h. apply in_map_iff in h. destruct h as [x [e hx]]. apply (rg_solving _ _ hr). rewrite <- e. apply hin, hx. }
  erewrite (mapM_combine _ _ (skipn a vals)).
  - cbn [bind]. do 2 f_equal. rewrite <- (firstn_skipn a names) at 3. rewrite <- (firstn_skipn a vals) at 2.
    assert (hl : firstn a vals = args).
    { unfold vals. rewrite firstn_app. subst a. rewrite firstn_all, Nat.sub_diag. cbn [firstn]. apply app_nil_r. }
    assert (hc : forall (l1 l2 : list string) (m1 m2 : list arg), List.length l1 = List.length m1 -> combine (l1 ++ l2) (m1 ++ m2) = combine l1 m1 ++ combine l2 m2).
    { clear. induction l1 as [|x l1 IH]; intros l2 [|y m1] m2 h; cbn in h; try discriminate; cbn; [reflexivity|]. f_equal. apply IH. lia. }
    rewrite hc; [rewrite hl; reflexivity|]. rewrite !firstn_length, vals_length. change (List.length names) with n. reflexivity.
  - rewrite !skipn_length, vals_length. reflexivity.
  - intros i p v hp hv. rewrite nth_error_skipn in hp. rewrite nth_error_skipn in hv. unfold bind_rest. apply nth_vals in hv. destruct hv as [hv|[[j [q [e hv]]]|[j [hc [e hv]]]]].
    + assert (a + i < a) by (apply nth_error_Some; congruence). lia.
    + pose proof (kw_name _ _ _ hv) as hn. rewrite <- e in hn. change (List.length args) with a in hp. rewrite hp in hn. injection hn as <-.
      rewrite (dict_some _ p v hnd); [reflexivity|]. apply in_or_app. left. exact (nth_error_In _ _ hv).
    + rewrite (dict_none _ p).
      * unfold default_of. rewrite (rg_defaults _ _ hr). change (List.length names) with n. change (List.length ds) with d.
        rewrite (dict_some _ p v); [reflexivity| |].
        -- assert (hm : forall (l : list string) (m : list arg), List.length l = List.length m -> map fst (combine l m) = l).
           { clear. induction l as [|x l IH]; intros [|y m] h; cbn in h; try discriminate; cbn; [reflexivity|]. f_equal. apply IH. lia. }
           rewrite hm by (rewrite skipn_length; change (List.length names) with n; subst d; lia).
           pose proof (rg_names _ _ hr) as hn. rewrite <- (firstn_skipn (n - d) names) in hn. apply nodup_right in hn. exact hn.
        -- apply (nth_error_In _ j), nth_combine. split; [|exact hv]. rewrite nth_error_skipn. replace (n - d + j) with (a + i) by lia. exact hp.
      * intro hx. rewrite map_app in hx. apply in_app_or in hx. destruct hx as [hx|[hx|[]]].
        -- apply in_map_iff in hx. destruct hx as [[q w] [eq hx]]. cbn in eq. subst q. apply In_nth_error in hx. destruct hx as [j' hj'].
           pose proof (kw_name _ _ _ hj') as hn. pose proof (nodup_nth _ _ _ _ (rg_names _ _ hr) hp hn) as hz.
           assert (j' < k) by (apply nth_error_Some; congruence). change (List.length args) with a in hz. lia.
        -- cbn in hx. apply (rg_solving _ _ hr). rewrite hx. exact (nth_error_In _ _ hp).
Qed.

(** ** The dispatch *)
Definition none_names (l : list (string * arg)) : list string := map fst (filter (fun x => is_none (snd x)) l).
Lemma none_names_in l p : In p (none_names l) <-> In (p, ANone) l.
Proof.
  unfold none_names. rewrite in_map_iff. split.
  - intros [[q v] [e h]]. cbn in e. subst q. apply filter_In in h. destruct h as [h hn]. destruct v; cbn in hn; try discriminate. exact h.
  - intro h. exists (p, ANone). split; [reflexivity|]. apply filter_In. auto.
Qed.
Lemma combine_nodup (l : list string) (m : list arg) : NoDup l -> NoDup (none_names (combine l m)).
Proof.
  revert m. induction l as [|x l IH]; intros m h; cbn; [constructor|]. destruct m as [|y m]; [constructor|]. inversion h as [|b c hx hl]; subst.
  unfold none_names in *. cbn. destruct (is_none y); [|apply IH, hl]. cbn. constructor; [|apply IH, hl].
  intro hc. apply in_map_iff in hc. destruct hc as [[q v] [e hc]]. cbn in e. subst q. apply filter_In in hc. destruct hc as [hc _].
  apply in_combine_l in hc. contradiction.
Qed.
Lemma last_none (l : list (string * arg)) cur p : none_names l = [p] ->
  fold_left (fun cur x => if is_none (snd x) then fst x else cur) l cur = p.
Proof.
  revert cur. induction l as [|[q v] l IH]; intros cur h; [discriminate|]. unfold none_names in *. cbn in *. destruct (is_none v) eqn:e.
  - cbn in h. injection h as -> h. clear IH. assert (hz : forall m : list (string * arg), map fst (filter (fun x => is_none (snd x)) m) = nil -> forall c,
      fold_left (fun cur x => if is_none (snd x) then fst x else cur) m c = c).
    { clear. induction m as [|[q v] m IH]; intros h c; [reflexivity|]. cbn in *. destruct (is_none v); [discriminate|]. apply IH, h. }
    apply hz. exact h.
  - apply IH. exact h.
Qed.
Lemma dispatch_ok solvable unknowns :
  ((exists p, missing sg args kw p /\ ~ In p solvable) -> wrapper solvable unknowns sg args kw = Raise ESolutionNotSupported) /\
  ((forall p, missing sg args kw p -> In p solvable) -> exists ms, NoDup ms /\ (forall p, In p ms <-> missing sg args kw p) /\
    (unknowns < List.length ms -> wrapper solvable unknowns sg args kw = Raise EUnsolvableEquation) /\
    (List.length ms < unknowns -> wrapper solvable unknowns sg args kw = Raise EOverSpecifiedProblem) /\
    (List.length ms = unknowns -> exists env s, wrapper solvable unknowns sg args kw = Ok (env, [("solving_for", s)]) /\
       (forall p v, In (p, v) env <-> gives sg args kw p v) /\
       (forall p, ms = [p] -> s = AName p) /\ (unknowns <> 1 -> s = ANames ms))).
Proof.
  unfold missing, wrapper. rewrite (rg_defaults _ _ hr), zip_vals. split.
  - intros [p [hp hn]]. apply gives_iff in hp.
    rewrite (proj2 (existsb_exists _ _)); [reflexivity|]. exists (p, ANone). split; [exact hp|]. cbn. rewrite (proj2 (mem_str_no _ _) hn). reflexivity.
  - intro hall. exists (none_names (combine names vals)). split; [apply combine_nodup, (rg_names _ _ hr)|].
    split; [intro p; rewrite none_names_in, gives_iff; reflexivity|].
    assert (e : existsb (fun x => negb (mem_str (fst x) solvable) && is_none (snd x)) (combine names vals) = false).
    { apply Bool.not_true_iff_false. intro h. apply existsb_exists in h. destruct h as [[p v] [h1 h2]]. cbn in h2. apply andb_true_iff in h2.
      destruct h2 as [h2 h3]. destruct v; cbn in h3; try discriminate. apply negb_true_iff, mem_str_no in h2. apply h2, hall, gives_iff, h1. }
    rewrite e. assert (hc : count_none (combine names vals) = List.length (none_names (combine names vals))) by (unfold count_none, none_names; rewrite map_length; reflexivity).
    rewrite hc. split; [|split].
    + intro h. rewrite (proj2 (Nat.ltb_lt _ _) h). reflexivity.
    + intro h. rewrite (proj2 (Nat.ltb_ge _ _)) by lia. rewrite (proj2 (Nat.ltb_lt _ _) h). reflexivity.
    + intro h. rewrite (proj2 (Nat.ltb_ge _ _)) by lia. rewrite (proj2 (Nat.ltb_ge _ _)) by lia.
      assert (hs : mem_str "solving_for" (map fst kw) = false).
      { apply mem_str_no. intro hi. apply in_map_iff in hi. destruct hi as [[q v] [e1 hi]]. cbn in e1. subst q. apply In_nth_error in hi.
        destruct hi as [j hj]. apply (rg_solving _ _ hr). exact (nth_error_In _ _ (kw_name _ _ _ hj)). }
      unfold solving_for. destruct (Nat.eqb unknowns 1) eqn:eu.
      * apply Nat.eqb_eq in eu. destruct (rev names) as [|x l] eqn:er.
        { exfalso. assert (en : names = nil) by (rewrite <- (rev_involutive names), er; reflexivity). rewrite en in h. cbn in h. lia. }
        cbn [bind]. rewrite hs, bind_in_order. eexists _, _. split; [reflexivity|]. split; [intros p v; symmetry; apply gives_iff|].
        split; [|congruence]. intros p hp. f_equal. apply last_none. exact hp.
      * apply Nat.eqb_neq in eu. cbn [bind]. rewrite hs, bind_in_order. eexists _, _. split; [reflexivity|]. split; [intros p v; symmetry; apply gives_iff|].
        split; [|reflexivity]. intros p hp. rewrite hp in h. cbn in h. congruence.
Qed.
End InOrder.

(** ** Any order of keywords: the number of missing parameters is still right *)
Definition cn (l : list arg) : nat := List.length (filter is_none l).
Lemma cn_app l m : cn (l ++ m) = cn l + cn m.
Proof. unfold cn. rewrite filter_app, app_length. reflexivity. Qed.
Lemma cn_perm l m : Permutation l m -> cn l = cn m.
Proof.
  induction 1; unfold cn in *; cbn; try congruence.
  - destruct (is_none x); cbn; congruence.
  - destruct (is_none x), (is_none y); reflexivity.
Qed.
Lemma count_cn l : count_none l = cn (map snd l).
Proof.
  unfold count_none, cn. induction l as [|[p v] l IH]; [reflexivity|]. cbn. destruct (is_none v); cbn; rewrite IH; reflexivity.
Qed.
Lemma cn_split {A} (f : A -> arg) (g : A -> bool) l : cn (map f l) = cn (map f (filter g l)) + cn (map f (filter (fun x => negb (g x)) l)).
Proof.
  induction l as [|x l IH]; [reflexivity|]. cbn. unfold cn in *. destruct (g x); cbn; destruct (is_none (f x)); cbn; rewrite IH; lia.
Qed.
Lemma split_length {A} (g : A -> bool) l : List.length l = List.length (filter g l) + List.length (filter (fun x => negb (g x)) l).
Proof. induction l as [|x l IH]; [reflexivity|]. cbn. destruct (g x); cbn; lia. Qed.
Lemma cn_const l m : List.length l = List.length m -> incl l ds -> incl m ds -> cn l = cn m.
Proof.
  intros h h1 h2. f_equal. apply nth_error_ext; [exact h|]. intros i x hx.
  destruct (nth_error m i) as [y|] eqn:hy.
  - f_equal. apply (rg_same _ _ hr); [apply h2; exact (nth_error_In _ _ hy)|apply h1; exact (nth_error_In _ _ hx)].
  - apply nth_error_None in hy. assert (i < List.length l) by (apply nth_error_Some; congruence). lia.
Qed.
Lemma mapM_map {A B} (f : A -> res B) (l : list A) r : mapM f l = Ok r -> forall d : A -> B, (forall x y, f x = Ok y -> y = d x) -> r = map d l.
Proof.
  revert r. induction l as [|x l IH]; intros r h d hd; cbn in h; [injection h as <-; reflexivity|].
  destruct (f x) as [y|] eqn:e; [|discriminate]. cbn in h. destruct (mapM f l) as [ys|]; [|discriminate]. cbn in h. injection h as <-.
  cbn. rewrite (hd _ _ e), (IH ys eq_refl d hd). reflexivity.
Qed.
Lemma mapM_all {A B} (f : A -> res B) (l : list A) r : mapM f l = Ok r -> forall x, In x l -> exists y, f x = Ok y.
Proof.
  revert r. induction l as [|x l IH]; intros r h z hz; [destruct hz|]. cbn in h.
  destruct (f x) as [y|] eqn:e; [|discriminate]. cbn in h. destruct (mapM f l) as [ys|]; [|discriminate].
  destruct hz as [<-|hz]; [exists y; exact e|]. exact (IH ys eq_refl z hz).
Qed.
Lemma combine_fst (l : list string) (m : list arg) : List.length l = List.length m -> map fst (combine l m) = l.
Proof. revert m. induction l as [|x l IH]; intros [|y m] h; cbn in h; try discriminate; cbn; [reflexivity|]. f_equal. apply IH. lia. Qed.
Lemma combine_snd (l : list string) (m : list arg) : List.length l = List.length m -> map snd (combine l m) = m.
Proof. revert m. induction l as [|x l IH]; intros [|y m] h; cbn in h; try discriminate; cbn; [reflexivity|]. f_equal. apply IH. lia. Qed.
Lemma default_iff p v : default_of sg p = Some v <->
  exists i j, nth_error names i = Some p /\ i + List.length ds = List.length names + j /\ nth_error ds j = Some v.
Proof.
  pose proof (rg_length _ _ hr) as hl. unfold default_of. rewrite (rg_defaults _ _ hr). split.
  - intro h. apply dict_in, In_nth_error in h. destruct h as [j h]. apply nth_combine in h. destruct h as [h1 h2]. rewrite nth_error_skipn in h1.
    eexists _, j. split; [exact h1|]. split; [lia|exact h2].
  - intros [i [j [h1 [h2 h3]]]]. apply dict_some.
    + rewrite combine_fst by (rewrite skipn_length; lia). pose proof (rg_names _ _ hr) as hn.
      rewrite <- (firstn_skipn (List.length names - List.length ds) names) in hn. apply nodup_right in hn. exact hn.
    + apply (nth_error_In _ j), nth_combine. split; [|exact h3]. rewrite nth_error_skipn. replace (List.length names - List.length ds + j) with i by lia. exact h1.
Qed.

Definition val_of (p : string) : arg :=
  match dict_get kw p with Some v => v | None => match default_of sg p with Some v => v | None => ANone end end.

Lemma runs_counted solvable unknowns r : NoDup (map fst kw) -> incl (map fst kw) names -> wrapper solvable unknowns sg args kw = Ok r ->
  exists ms, NoDup ms /\ (forall p, In p ms <-> missing sg args kw p) /\ List.length ms = unknowns.
Proof.
  intros hnd hincl h. unfold wrapper in h. rewrite (rg_defaults _ _ hr) in h. set (d := combine names (args ++ map snd kw ++ ds)) in h.
  destruct (existsb _ d); [discriminate|]. destruct (Nat.ltb unknowns (count_none d)) eqn:e1; [discriminate|].
  destruct (Nat.ltb (count_none d) unknowns) eqn:e2; [discriminate|]. apply Nat.ltb_ge in e1, e2.
  destruct (solving_for unknowns names d) as [s|]; [|discriminate]. cbn [bind] in h. destruct (mem_str "solving_for" (map fst kw)) eqn:es; [discriminate|].
  unfold bind_call in h. destruct (Nat.ltb (List.length names) (List.length args)) eqn:e3; [discriminate|]. apply Nat.ltb_ge in e3.
  destruct (existsb _ _) eqn:e4 in h; [discriminate|]. rewrite (rg_kw _ _ hr) in h. cbn [negb andb] in h.
  destruct (mapM _ _) as [rest|] eqn:em in h; [|discriminate]. clear h r.
  set (a := List.length args) in *. set (L := skipn a names) in *.
  assert (hL : NoDup L) by (pose proof (rg_names _ _ hr) as hn; rewrite <- (firstn_skipn a names) in hn; apply nodup_right in hn; exact hn).
  assert (hkL : forall p, In p (map fst kw) -> In p L).
  { intros p hp. pose proof (hincl p hp) as hn. rewrite <- (firstn_skipn a names) in hn. apply in_app_or in hn. destruct hn as [hn|hn]; [|exact hn].
    exfalso. apply in_map_iff in hp. destruct hp as [x [e hx]]. apply Bool.not_true_iff_false in e4. apply e4, existsb_exists. exists x.
    split; [apply in_or_app; left; exact hx|]. rewrite e. apply mem_str_iff, hn. }
  assert (hget : forall p, In p L -> dict_get (kw ++ [("solving_for", s)]) p = dict_get kw p).
  { intros p hp. assert (hps : p <> "solving_for").
    { intros ->. apply (rg_solving _ _ hr). rewrite <- (firstn_skipn a names). apply in_or_app. right. exact hp. }
    clear - hps. induction kw as [|[q v] l IH].
    - cbn [app dict_get]. destruct (String.eqb "solving_for" p) eqn:e; [apply String.eqb_eq in e; congruence|reflexivity].
    - cbn [app dict_get]. rewrite IH. reflexivity. }
  assert (hval : forall p, In p L -> bind_rest sg (kw ++ [("solving_for", s)]) p = Ok (p, val_of p)).
  { intros p hp. destruct (mapM_all _ _ _ em p hp) as [y hy]. rewrite hy. unfold bind_rest in hy. rewrite (hget p hp) in hy. unfold val_of.
    destruct (dict_get kw p); [injection hy as <-; reflexivity|]. destruct (default_of sg p); [injection hy as <-; reflexivity|discriminate]. }
  set (env := combine (firstn a names) args ++ map (fun p => (p, val_of p)) L).
  assert (hla : List.length (firstn a names) = List.length args) by (rewrite firstn_length; subst a; lia).
  assert (hgives : forall p v, gives sg args kw p v <-> In (p, v) env).
  { intros p v. unfold env. rewrite in_app_iff. split.
    - intro h. inversion h as [i q w h1 h2|i q w h1 h2 h3|i j ds' q w h1 h2 h3 h4 h5 h6]; subst.
      + left. apply (nth_error_In _ i), nth_combine. split; [|exact h2]. rewrite nth_error_firstn; [exact h1|]. apply nth_error_Some. congruence.
      + right. apply in_map_iff. exists p. split.
        * unfold val_of. rewrite (dict_some _ p v hnd h3). reflexivity.
        * apply hkL. apply (in_map fst) in h3. exact h3.
      + right. apply in_map_iff. exists p. split.
        * unfold val_of. rewrite (dict_none _ p h3). rewrite (rg_defaults _ _ hr) in h4. injection h4 as <-.
          rewrite (proj2 (default_iff p v)); [reflexivity|]. exists i, j. auto.
        * apply (nth_error_In _ (i - a)). unfold L. rewrite nth_error_skipn. replace (a + (i - a)) with i by (subst a; lia). exact h1.
    - intros [h|h].
      + apply In_nth_error in h. destruct h as [i h]. apply nth_combine in h. destruct h as [h1 h2].
        apply (by_position _ _ _ i); [|exact h2]. rewrite nth_error_firstn in h1; [exact h1|]. apply nth_error_Some. congruence.
      + apply in_map_iff in h. destruct h as [q [e hq]]. injection e as -> ev. pose proof (hval p hq) as hb. unfold bind_rest in hb. rewrite (hget p hq) in hb.
        apply In_nth_error in hq. destruct hq as [i hi]. unfold L in hi. rewrite nth_error_skipn in hi.
        destruct (dict_get kw p) as [w|] eqn:ek.
        * injection hb as hb. rewrite ev in hb. subst w. apply (by_keyword _ _ _ (a + i)); [exact hi|subst a; lia|]. exact (dict_in _ _ _ ek).
        * destruct (default_of sg p) as [w|] eqn:ed; [|discriminate]. injection hb as hb. rewrite ev in hb. subst w.
          apply default_iff in ed. destruct ed as [i' [j [h1 [h2 h3]]]]. pose proof (nodup_nth _ _ _ _ (rg_names _ _ hr) hi h1) as <-.
          apply (by_default _ _ _ (a + i) j ds); [exact hi|subst a; lia| |exact (rg_defaults _ _ hr)|exact h2|exact h3].
          intro hk. apply in_map_iff in hk. destruct hk as [[q w] [e hk]]. cbn in e. subst q. rewrite (dict_some _ _ _ hnd hk) in ek. discriminate. }
  exists (none_names env). split; [|split].
  - assert (he : env = combine names (args ++ map val_of L)).
    { assert (e0 : names = firstn a names ++ L) by (symmetry; apply firstn_skipn). rewrite e0 at 1. unfold env. clear - hla. revert hla. generalize (firstn a names) args.
      induction l as [|x l IH]; intros [|y m] h; cbn in h; try discriminate; cbn.
      - induction L as [|z L IH]; cbn; [reflexivity|]. rewrite IH. reflexivity.
      - rewrite IH by lia. reflexivity. }
    rewrite he. apply combine_nodup, (rg_names _ _ hr).
  - intro p. rewrite none_names_in. symmetry. apply hgives.
  - transitivity (count_none d); [|lia]. unfold none_names. rewrite map_length. change (count_none env = count_none d). rewrite !count_cn.
    set (g := fun p => mem_str p (map fst kw)).
    assert (hperm : Permutation (filter g L) (map fst kw)).
    { apply NoDup_Permutation; [apply NoDup_filter, hL|exact hnd|]. intro p. rewrite filter_In. unfold g. rewrite mem_str_iff. split; [tauto|]. intro hp. auto. }
    set (R := filter (fun p => negb (g p)) L).
    assert (hR : List.length R = List.length names - a - List.length kw /\ a + List.length kw <= List.length names).
    { pose proof (split_length g L) as hs. fold R in hs. rewrite (Permutation_length hperm), map_length in hs. unfold L in hs at 1. rewrite skipn_length in hs. lia. }
    assert (hRd : forall p, In p R -> exists v, default_of sg p = Some v /\ val_of p = v).
    { intros p hp. apply filter_In in hp. destruct hp as [hp hg]. pose proof (hval p hp) as hb. unfold bind_rest in hb. rewrite (hget p hp) in hb.
      unfold g in hg. apply negb_true_iff, mem_str_no in hg. rewrite (dict_none _ p hg) in hb. unfold val_of. rewrite (dict_none _ p hg).
      destruct (default_of sg p) as [v|]; [|discriminate]. exists v. auto. }
    assert (hRl : List.length R <= List.length ds).
    { pose proof (rg_length _ _ hr) as hl.
      transitivity (List.length (skipn (List.length names - List.length ds) names)); [|rewrite skipn_length; lia].
      apply NoDup_incl_length; [apply NoDup_filter, hL|]. intros p hp. destruct (hRd p hp) as [v [hv _]].
      apply default_iff in hv. destruct hv as [i [j [h1 [h2 h3]]]]. apply (nth_error_In _ j). rewrite nth_error_skipn.
      replace (List.length names - List.length ds + j) with i by lia. exact h1. }
    unfold env. rewrite map_app, map_map, cn_app. cbn [snd]. rewrite (combine_snd _ _ hla). change (map (fun x => val_of x) L) with (map val_of L). rewrite (cn_split val_of g L). fold R.
    rewrite (cn_perm _ _ (Permutation_map val_of hperm)).
    assert (ek : map val_of (map fst kw) = map snd kw).
    { rewrite map_map. apply map_ext_in. intros [p v] hx. cbn. unfold val_of. rewrite (dict_some _ p v hnd hx). reflexivity. }
    rewrite ek. unfold d. rewrite combine_firstn_l. destruct hR as [hR1 hR2].
    rewrite firstn_app, firstn_app. rewrite (firstn_all2 args) by (fold a; lia). rewrite map_length, (firstn_all2 (map snd kw)) by (rewrite map_length; fold a; lia).
    fold a. rewrite combine_snd by (rewrite !app_length, map_length, firstn_length; fold a; lia).
    rewrite !cn_app. f_equal. f_equal. apply cn_const.
    + rewrite map_length, firstn_length. lia.
    + intros v hv. apply in_map_iff in hv. destruct hv as [p [e hp]]. destruct (hRd p hp) as [w [hw hvw]]. apply default_iff in hw.
      destruct hw as [i [j [_ [_ hj]]]]. rewrite <- e, hvw. exact (nth_error_In _ _ hj).
    + intros v hv. rewrite <- (firstn_skipn (List.length names - a - List.length kw) ds). apply in_or_app. left. exact hv.
Qed.
End Facts.

(** ** Concrete calls *)
Lemma planar_heat_regular V : regular (planar_heat_sig V) [ANone].
Proof.
  constructor; try reflexivity; cbn.
  - repeat constructor; cbn; intuition discriminate.
  - intuition discriminate.
  - lia.
  - intros x y [<-|[]] [<-|[]]. reflexivity.
Qed.
Lemma exchanger_regular {V} (f : V) : regular (exchanger_sig f) [AVal f].
Proof.
  constructor; try reflexivity; cbn.
  - repeat constructor; cbn; intuition discriminate.
  - intuition discriminate.
  - lia.
  - intros x y [<-|[]] [<-|[]]. reflexivity.
Qed.
Lemma planar_flux_regular V : regular (planar_flux_sig V) [ANone].
Proof.
  constructor; try reflexivity; cbn.
  - repeat constructor; cbn; intuition discriminate.
  - intuition discriminate.
  - lia.
  - intros x y [<-|[]] [<-|[]]. reflexivity.
Qed.
Lemma arrhenius_regular V : regular (arrhenius_sig V) [ANone].
Proof.
  constructor; try reflexivity; cbn.
  - repeat constructor; cbn; intuition discriminate.
  - intuition discriminate.
  - lia.
  - intros x y [<-|[]] [<-|[]]. reflexivity.
Qed.

(** planar_heat(k, T1, T2, q=7, A=5, thickness=None): thickness is missing, but
    the body is told to solve for q. *)
Lemma order_lost : exists args kw env, NoDup (map fst kw) /\ incl (map fst kw) (s_args (planar_heat_sig nat)) /\
  missing (planar_heat_sig nat) args kw "thickness" /\ ~ missing (planar_heat_sig nat) args kw "q" /\
  wrapper planar_heat_solvable 1 (planar_heat_sig nat) args kw = Ok (env, [("solving_for", AName "q")]).
Proof.
  exists [AVal 1; AVal 2; AVal 3], [("q", AVal 7); ("A", AVal 5); ("thickness", ANone)]. eexists. split; [|split; [|split; [|split]]].
  - repeat constructor; cbn; intuition discriminate.
  - intros p hp. cbn in *. tauto.
  - apply (by_keyword _ _ _ 4); [reflexivity|cbn; lia|cbn; tauto].
  - intro h. inversion h as [i q w h1 h2|i q w h1 h2 h3|i j ds q w h1 h2 h3 h4 h5 h6]; subst.
    + destruct i as [|[|[|i]]]; cbn in h1, h2; try discriminate. destruct i; discriminate.
    + cbn in h3. intuition discriminate.
    + cbn in h3. tauto.
  - cbv. reflexivity.
Qed.
(** planar_heat(k, T1, T2, thickness=None, A=5, q=7): solvable, but refused. *)
Lemma order_refused : exists args kw, NoDup (map fst kw) /\ incl (map fst kw) (s_args (planar_heat_sig nat)) /\
  (forall p, missing (planar_heat_sig nat) args kw p <-> p = "thickness") /\ In "thickness" planar_heat_solvable /\
  wrapper planar_heat_solvable 1 (planar_heat_sig nat) args kw = Raise ESolutionNotSupported.
Proof.
  exists [AVal 1; AVal 2; AVal 3], [("thickness", ANone); ("A", AVal 5); ("q", AVal 7)]. split; [|split; [|split; [|split]]].
  - repeat constructor; cbn; intuition discriminate.
  - intros p hp. cbn in *. tauto.
  - intro p. split.
    + intro h. inversion h as [i q w h1 h2|i q w h1 h2 h3|i j ds q w h1 h2 h3 h4 h5 h6]; subst.
      * destruct i as [|[|[|i]]]; cbn in h1, h2; try discriminate. destruct i; discriminate.
      * cbn in h3. destruct h3 as [h3|[h3|[h3|[]]]]; congruence.
      * cbn in h4. injection h4 as <-. destruct j as [|[|j]]; [|discriminate|discriminate].
        assert (i = 5) by (cbn in h5; lia). subst i. cbn in h1. injection h1 as <-. exfalso. apply h3. cbn. tauto.
    + intros ->. apply (by_keyword _ _ _ 4); [reflexivity|cbn; lia|cbn; tauto].
  - cbn. tauto.
  - cbv. reflexivity.
Qed.
(** A function of one parameter without default, called with None for it. *)
Lemma no_default : exists (sg : sig nat) args kw, NoDup (s_args sg) /\ varkw sg = true /\ (forall p, missing sg args kw p <-> p = "x") /\
  wrapper ["x"] 1 sg args kw = Raise ETypeError.
Proof.
  exists (Sig ["x"] None true), [ANone], nil. split; [repeat constructor; cbn; tauto|]. split; [reflexivity|]. split; [|reflexivity]. intro p. split.
  - intro h. inversion h as [i q w h1 h2|i q w h1 h2 h3|i j ds q w h1 h2 h3 h4 h5 h6]; subst; [|destruct h3|discriminate].
    destruct i as [|[|i]]; cbn in h1; congruence.
  - intros ->. apply (by_position _ _ _ 0); reflexivity.
Qed.
Lemma positional_in_order : in_order (planar_heat_sig nat) [ANone] [AVal 1; AVal 2; ANone; AVal 5] [("thickness", AVal 3); ("q", AVal 7)].
Proof. constructor; cbn; try reflexivity; lia. Qed.
Lemma library_regular V (f : V) : regular (planar_heat_sig V) [ANone] /\ regular (planar_flux_sig V) [ANone] /\
  regular (arrhenius_sig V) [ANone] /\ regular (exchanger_sig f) [AVal f].
Proof. split; [apply planar_heat_regular|]. split; [apply planar_flux_regular|]. split; [apply arrhenius_regular|apply exchanger_regular]. Qed.
