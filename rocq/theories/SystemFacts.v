(** * SystemFacts: the heat exchanger system and the total of the exponents *)
From Coq Require Import String Ascii List Arith Bool Lia.
From Verif Require Import Py Num UnitsStruct Units Solve SolveSpec SolveFacts Formulas.
Import ListNotations.
Local Open Scope string_scope.
Local Open Scope list_scope.

(** ** The names handed over keep the order of the parameters *)
Lemma filter_order {A B} (p : A * B -> bool) (l : list A) (m : list B) a b r :
  map fst (filter p (combine l m)) = a :: b :: r -> exists i j, (i < j)%nat /\ nth_error l i = Some a /\ nth_error l j = Some b.
Proof.
  assert (hin : forall (l : list A) (m : list B) x, In x (map fst (filter p (combine l m))) -> exists i, nth_error l i = Some x).
  { intros l0 m0 x h. apply in_map_iff in h. destruct h as [[x' y] [e h]]. cbn in e. subst x'. apply filter_In in h. destruct h as [h _].
    apply in_combine_l in h. apply In_nth_error in h. exact h. }
  revert m. induction l as [|x l IH]; intros [|y m] h; cbn in h; try discriminate.
  destruct (p (x, y)).
  - cbn in h. injection h as -> h. assert (hb : In b (map fst (filter p (combine l m)))) by (rewrite h; left; reflexivity).
    apply hin in hb. destruct hb as [j hj]. exists 0%nat, (S j). cbn. split; [lia|]. auto.
  - destruct (IH _ h) as (i & j & hij & hi & hj). exists (S i), (S j). cbn. split; [lia|auto].
Qed.
Definition exch_names : list string := ["m1"; "cp1"; "m2"; "cp2"; "T0A"; "T1A"; "T0B"; "T1B"; "area"; "U"; "cocurrent"].
Lemma later_cp1 i j : (i < j)%nat -> nth_error exch_names i = Some "cp1" -> nth_error exch_names j = Some "m1" -> False.
Proof.
  intros h hi hj. assert (e : j = 0%nat); [|lia].
  apply (nodup_nth exch_names j 0 "m1"); [|exact hj|reflexivity]. apply (rg_names _ _ (exchanger_regular tt)).
Qed.
Lemma later_cp2 i j : (i < j)%nat -> nth_error exch_names i = Some "cp2" -> nth_error exch_names j = Some "m2" -> False.
Proof.
  intros h hi hj. assert (e : j = 2%nat).
  { apply (nodup_nth exch_names j 2 "m2"); [|exact hj|reflexivity]. apply (rg_names _ _ (exchanger_regular tt)). }
  assert (e' : i = 3%nat).
  { apply (nodup_nth exch_names i 3 "cp2"); [|exact hi|reflexivity]. apply (rg_names _ _ (exchanger_regular tt)). }
  lia.
Qed.

(** What the wrapper hands over. *)
Lemma handed (args : list (arg val)) kw env extra :
  wrapper exchanger_solvable 2 (exchanger_sig VObj) args kw = Ok (env, extra) ->
  exists x y, dict_get extra "solving_for" = Some (ANames [x; y]) /\
    ((String.eqb x "cp1" && String.eqb y "m1") || (String.eqb x "cp2" && String.eqb y "m2"))%bool = false.
Proof.
  unfold wrapper. cbn [s_defaults exchanger_sig s_args]. fold exch_names.
  set (d := combine exch_names (args ++ map snd kw ++ [AVal VObj])).
  destruct (existsb _ d); [discriminate|]. destruct (Nat.ltb 2 (count_none d)) eqn:e1; [discriminate|].
  destruct (Nat.ltb (count_none d) 2) eqn:e2; [discriminate|]. apply Nat.ltb_ge in e1, e2.
  unfold solving_for. cbn [Nat.eqb bind]. destruct (mem_str "solving_for" (map fst kw)) eqn:es; [discriminate|].
  assert (hl : List.length (map fst (filter (fun x => is_none (snd x)) d)) = 2%nat) by (rewrite map_length; unfold count_none in e1, e2; lia).
  destruct (map fst (filter (fun x => is_none (snd x)) d)) as [|x [|y [|z r]]] eqn:em; try discriminate hl.
  intro h. exists x, y. split.
  - unfold bind_call in h. destruct (Nat.ltb _ _); [discriminate|]. destruct (existsb _ _); [discriminate|]. cbn [varkw negb andb exchanger_sig] in h.
    destruct (mapM _ _); [|discriminate]. cbn [bind] in h. injection h as _ <-.
    assert (hd : forall (l : list (string * arg val)), dict_get (l ++ [("solving_for", ANames [x; y])]) "solving_for" = Some (ANames [x; y])).
    { induction l as [|[k v] l IH]; [reflexivity|]. cbn [app dict_get]. rewrite IH. reflexivity. }
    rewrite filter_app. exact (hd _).
  - destruct (filter_order _ _ _ _ _ _ em) as (i & j & hij & hi & hj).
    apply Bool.orb_false_iff. split; apply Bool.not_true_iff_false; intro hc; apply andb_prop in hc; destruct hc as [hx hy];
      apply String.eqb_eq in hx, hy; subst x y.
    + exact (later_cp1 _ _ hij hi hj).
    + exact (later_cp2 _ _ hij hi hj).
Qed.

(** The body neither solves anything nor refuses anything. *)
Lemma exchanger_none args kw : solve_heat_exchanger_system args kw =
  (let* _ := wrapper exchanger_solvable 2 (exchanger_sig VObj) args kw in Ok VNone).
Proof.
  unfold solve_heat_exchanger_system, decorated. destruct (wrapper _ _ _ args kw) as [[env extra]|] eqn:e; [|reflexivity]. cbn [bind].
  destruct (handed _ _ _ _ e) as (x & y & hd & hb). unfold exchanger_body. cbn [snd]. rewrite hd, hb. reflexivity.
Qed.
Lemma exchanger_never_solves args kw v : solve_heat_exchanger_system args kw = Ok v -> v = VNone.
Proof. rewrite exchanger_none. destruct (wrapper _ _ _ args kw); cbn; congruence. Qed.
Lemma exchanger_calls args kw (x y : string) :
  in_order (exchanger_sig (VObj : val)) [AVal VObj] args kw -> x <> y ->
  (forall p, missing (exchanger_sig (VObj : val)) args kw p <-> p = x \/ p = y) ->
  solve_heat_exchanger_system args kw = if (mem_str x exchanger_solvable && mem_str y exchanger_solvable)%bool then Ok VNone else Raise ESolutionNotSupported.
Proof.
  intros ho hn hm. rewrite exchanger_none.
  destruct (dispatch_ok _ _ _ _ (exchanger_regular VObj) ho exchanger_solvable 2) as [h1 h2].
  destruct (mem_str x exchanger_solvable && mem_str y exchanger_solvable)%bool eqn:e.
  - apply andb_prop in e. destruct e as [ex ey]. apply mem_str_iff in ex, ey.
    destruct h2 as (ms & hnd & hi & _ & _ & h); [intros p hp; apply hm in hp; destruct hp; subst; assumption|].
    destruct h as (env & s & h & _).
    + assert (hp : Permutation.Permutation ms [x; y]).
      { apply Permutation.NoDup_Permutation; [exact hnd|constructor; [intros [hc|[]]; congruence|constructor; [intros []|constructor]]|].
        intro p. rewrite hi, hm. cbn. intuition. }
      apply Permutation.Permutation_length in hp. exact hp.
    + rewrite h. reflexivity.
  - rewrite h1; [reflexivity|]. apply Bool.andb_false_iff in e. destruct e as [e|e]; apply mem_str_no in e.
    + exists x. split; [apply hm; auto|exact e].
    + exists y. split; [apply hm; auto|exact e].
Qed.

(** A stream of which neither the flow nor the heat capacity is known. *)
Definition known : arg val := AVal (VNum Rdefinitions.R1).
Definition degenerate : list (arg val) := [ANone; ANone; known; known; known; known; known; known; known; known].
Lemma degenerate_in_order : in_order (exchanger_sig (VObj : val)) [AVal VObj] degenerate [].
Proof. constructor; cbn; try reflexivity; lia. Qed.
Lemma degenerate_missing p : missing (exchanger_sig (VObj : val)) degenerate [] p <-> p = "m1" \/ p = "cp1".
Proof.
  split.
  - intro h. inversion h as [i q v hi hv|i q v hi hl hk|i j ds q v hi hl hn hd hj hv]; subst; [|destruct hk|].
    + do 10 (destruct i as [|i]; [cbn in hi, hv; try discriminate hv; injection hi as <-; auto|]). cbn in hv. destruct i; discriminate hv.
    + cbn in hd. injection hd as <-. destruct j as [|j]; [discriminate hv|]. destruct j; discriminate hv.
  - intros [-> | ->]; [apply (by_position _ _ _ 0)|apply (by_position _ _ _ 1)]; reflexivity.
Qed.
Lemma degenerate_accepted : exists args kw, in_order (exchanger_sig (VObj : val)) [AVal VObj] args kw /\
  (forall p, missing (exchanger_sig (VObj : val)) args kw p <-> p = "m1" \/ p = "cp1") /\ solve_heat_exchanger_system args kw = Ok VNone.
Proof.
  exists degenerate, []. split; [exact degenerate_in_order|]. split; [exact degenerate_missing|].
  exact (exchanger_calls _ _ "m1" "cp1" degenerate_in_order ltac:(discriminate) degenerate_missing).
Qed.
Definition proper : list (arg val) := [known; known; known; known; known; ANone; known; known; known; ANone].
Lemma proper_missing p : missing (exchanger_sig (VObj : val)) proper [] p <-> p = "T1A" \/ p = "U".
Proof.
  split.
  - intro h. inversion h as [i q v hi hv|i q v hi hl hk|i j ds q v hi hl hn hd hj hv]; subst; [|destruct hk|].
    + do 10 (destruct i as [|i]; [cbn in hi, hv; try discriminate hv; injection hi as <-; auto|]). cbn in hv. destruct i; discriminate hv.
    + cbn in hd. injection hd as <-. destruct j as [|j]; [discriminate hv|]. destruct j; discriminate hv.
  - intros [-> | ->]; [apply (by_position _ _ _ 5)|apply (by_position _ _ _ 9)]; reflexivity.
Qed.
Lemma proper_in_order : in_order (exchanger_sig (VObj : val)) [AVal VObj] proper [].
Proof. constructor; cbn; try reflexivity; lia. Qed.
Lemma proper_unsolved : exists args kw, in_order (exchanger_sig (VObj : val)) [AVal VObj] args kw /\
  (forall p, missing (exchanger_sig (VObj : val)) args kw p <-> p = "T1A" \/ p = "U") /\ solve_heat_exchanger_system args kw = Ok VNone.
Proof.
  exists proper, []. split; [exact proper_in_order|]. split; [exact proper_missing|].
  exact (exchanger_calls _ _ "T1A" "U" proper_in_order ltac:(discriminate) proper_missing).
Qed.
