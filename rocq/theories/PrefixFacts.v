(** * PrefixFacts: stripping SI prefixes is exact *)
From Coq Require Import String Ascii List ZArith QArith Qcanon Bool Reals Qreals Lia Lra.
From Verif Require Import Py Num UnitsData UnitsStruct Units NumFacts Spec StructFacts.
Import ListNotations.
Local Open Scope string_scope.
Local Open Scope list_scope.
Local Open Scope R_scope.

(** What stripping one unit gives: nothing to strip, or a known prefix. *)
Inductive stripped (w : usys) (n : string) : string -> string -> Prop :=
| st_none : stripped w n EmptyString n
| st_some pfx n' q : pfx <> EmptyString -> dict_get prefix_factors pfx = Some q -> (0 < q)%Q ->
    w n = Q2R q * w n' -> In n' si_symbols -> stripped w n pfx n'.

Lemma mem_str_In s l : mem_str s l = true <-> In s l.
Proof.
  unfold mem_str. rewrite existsb_exists. split.
  - intros [x [h e]]. apply String.eqb_eq in e. subst. exact h.
  - intro h. exists s. split; auto. apply String.eqb_refl.
Qed.

Lemma prefix_value p : In p prefix_letters -> exists q f, (0 < q)%Q /\ In (p, f) si_prefixes /\
  dict_get prefix_factors (String p EmptyString) = Some q /\ Q2R q = f /\
  mem_str (String p EmptyString) ["m"; "c"; "d"; "k"; "M"] = true.
Proof.
  intro h. cbn in h. destruct h as [<-|[<-|[<-|[<-|[<-|[]]]]]].
  - exists (1 # 1000), (/ 1000). repeat split; try (cbn; tauto). unfold Q2R; cbn; lra.
  - exists (1 # 100), (/ 100). repeat split; try (cbn; tauto). unfold Q2R; cbn; lra.
  - exists (1 # 10), (/ 10). repeat split; try (cbn; tauto). unfold Q2R; cbn; lra.
  - exists (1000 # 1), 1000. repeat split; try (cbn; tauto). unfold Q2R; cbn; lra.
  - exists (1000000 # 1), 1000000. repeat split; try (cbn; tauto). unfold Q2R; cbn; lra.
Qed.

Lemma split_prefix_ok w x : coherent w -> admissible (bname x) ->
  exists pfx n', split_prefix x = Ok (pfx, BU n' (bexp x)) /\ stripped w (bname x) pfx n' /\
    (pfx = EmptyString -> unprefixed (bname x)).
Proof.
  intros hc ha. unfold split_prefix. destruct x as [n e]. cbn [bname bexp] in *.
  destruct (String.eqb n "kg") eqn:ekg.
  { apply String.eqb_eq in ekg. subst. exists EmptyString, "kg". split; [reflexivity|]. split; [constructor|].
    intros _. right. right. cbn. tauto. }
  destruct n as [|c rest].
  { destruct ha as [[c h]|[[c [r [h _]]]|[h|[p [s [_ [_ h]]]]]]]; try discriminate.
    cbn in h. destruct h as [h|[h|[h|[]]]]; discriminate. }
  unfold get_prefix.
  assert (stay : (String.eqb rest EmptyString || negb (mem_str (String c EmptyString) ["m"; "c"; "d"; "k"; "M"])
         || mem_str (String c rest) ["min"; "cP"; "mol"]) = true ->
         unprefixed (String c rest)).
  { intro h. apply orb_true_iff in h. destruct h as [h|h]; [apply orb_true_iff in h; destruct h as [h|h]|].
    - left. exists c. apply String.eqb_eq in h. congruence.
    - right. left. exists c, rest. split; auto. intro hin. apply negb_true_iff in h.
      destruct (prefix_value c hin) as [q [f [_ [_ [_ [_ hm]]]]]]. congruence.
    - right. right. apply mem_str_In in h. cbn in h. cbn. tauto. }
  destruct (String.eqb rest EmptyString || _ || _) eqn:b; cbn [bind fst snd].
  - exists EmptyString, (String c rest). split; [reflexivity|]. split; [constructor|]. intros _. auto.
  - apply orb_false_iff in b. destruct b as [b b3]. apply orb_false_iff in b. destruct b as [b1 b2].
    apply negb_false_iff in b2. apply mem_str_In in b2.
    assert (hsym : In c prefix_letters /\ In rest si_symbols).
    { destruct ha as [[c' h]|[[c' [r [h hn]]]|[h|[p [s [hp [hs h]]]]]]].
      - injection h as _ ->. cbn in b1. discriminate.
      - exfalso. injection h as -> ->. apply hn. cbn in b2. cbn.
        destruct b2 as [h2|[h2|[h2|[h2|[h2|[]]]]]]; injection h2 as ->; tauto.
      - apply mem_str_In in h. congruence.
      - injection h as -> ->. auto. }
    destruct hsym as [hp hs].
    destruct (prefix_value c hp) as [q [f [hq [hin [hd [hf _]]]]]].
    exists (String c EmptyString), rest. split; [reflexivity|]. split; [|discriminate].
    apply st_some with (q := q); auto; [discriminate|].
    rewrite hf. apply (co_prefix w hc c f rest hin hs).
Qed.

Lemma mapM_split w l : coherent w -> adm_half l ->
  exists ps, mapM split_prefix l = Ok ps /\
    Forall2 (fun x p => stripped w (bname x) (fst p) (bname (snd p)) /\ bexp (snd p) = bexp x /\
                        (fst p = EmptyString -> unprefixed (bname x))) l ps.
Proof.
  intros hc. induction l as [|x l IH]; intro ha.
  - exists nil. split; [reflexivity|constructor].
  - destruct (split_prefix_ok w x hc (ha x (or_introl eq_refl))) as [pfx [n' [e [s u]]]].
    destruct IH as [ps [e' f']]; [intros y hy; apply ha; right; exact hy|].
    exists ((pfx, BU n' (bexp x)) :: ps). cbn [mapM]. rewrite e. cbn [bind]. rewrite e'. split; [reflexivity|].
    constructor; auto.
Qed.

Lemma prefix_loop_ok w l ps inv (f : R) : coherent w ->
  Forall2 (fun x p => stripped w (bname x) (fst p) (bname (snd p)) /\ bexp (snd p) = bexp x /\
                      (fst p = EmptyString -> unprefixed (bname x))) l ps ->
  exists g, prefix_loop inv ps f = Ok (f * (if inv then / g else g)) /\ 0 < g /\ usize w l = g * usize w (map snd ps).
Proof.
  intros hc h. revert f. induction h as [|x p l ps [hs [he _]] h IH]; intro f.
  - exists 1. cbn. split; [|split; [lra|lra]]. f_equal. destruct inv; field.
  - destruct p as [pfx y]. cbn [fst snd] in *. cbn [prefix_loop map snd usize].
    rewrite he. inversion hs as [hp hn|pfx' n' q hne hd hq hw hsym hp hn]; subst.
    + cbn [String.eqb]. destruct (IH f) as [g [e [hg hu]]]. exists g. rewrite e, hu. split; [reflexivity|]. split; [exact hg|].
      ring.
    + rewrite (proj2 (String.eqb_neq pfx EmptyString) hne). rewrite hd.
      assert (qp : 0 < Q2R q) by (apply Q2R_pos; exact hq).
      assert (wp : 0 < w (bname y)) by apply (co_pos w hc).
      set (e := QcR (ev (bexp x))) in *.
      assert (step : (let* b := (if inv then pydiv (nq 1) (nq q) else Ok (nq q)) in npow b (ev (bexp x)))
                     = Ok (if inv then / Rpower (Q2R q) e else Rpower (Q2R q) e)).
      { destruct inv.
        - cbn [nq Rnum]. rewrite pydiv_ok by lra. cbn [bind npow Rnum].
          replace (Q2R 1) with 1 by (unfold Q2R; cbn; field).
          replace (1 / Q2R q) with (/ Q2R q) by (field; lra).
          rewrite Rpowq_pos by (apply Rinv_0_lt_compat; exact qp).
          fold e. rewrite Rpower_Rinv by exact qp. reflexivity.
        - cbn [bind npow Rnum nq]. apply Rpowq_pos. exact qp. }
      rewrite step. pose proof (Rpower_pos (Q2R q) e) as pp.
      destruct (IH (nmul f (if inv then / Rpower (Q2R q) e else Rpower (Q2R q) e))) as [g [e' [hg hu]]].
      exists (Rpower (Q2R q) e * g). rewrite e'. cbn [nmul Rnum]. split; [|split].
      * f_equal. destruct inv; field; lra.
      * apply Rmult_lt_0_compat; auto.
      * rewrite hw, hu, Rpower_mult_base by auto. ring.
Qed.

Lemma stripped_unprefixed l ps w :
  Forall2 (fun x p => stripped w (bname x) (fst p) (bname (snd p)) /\ bexp (snd p) = bexp x /\
                      (fst p = EmptyString -> unprefixed (bname x))) l ps ->
  unprefixed_half (map snd ps).
Proof.
  intro h. induction h as [|x p l ps [hs [he hu]] h IH]; intros y hy; [destruct hy|].
  cbn in hy. destruct hy as [<-|hy]; [|apply IH; exact hy].
  inversion hs as [hp hn|pfx' n' q hne hd hq hw hsym hp hn]; subst.
  - apply hu. auto.
  - clear -hsym. cbn in hsym. repeat (destruct hsym as [<-|hsym]); [..|destruct hsym].
    all: try (left; eexists; reflexivity). all: right; try (right; cbn; tauto).
    all: left; eexists; eexists; split; [reflexivity|]; cbn; intros [h|[h|[h|[h|[h|[]]]]]]; discriminate.
Qed.

Lemma prefixes_ok w top bot : coherent w -> adm_half top -> adm_half bot ->
  exists t b f, deconstruct_unit_prefixes top bot = Ok (t, b, f) /\ 0 < f /\
    f * msize w t b = msize w top bot /\ unprefixed_half t /\ unprefixed_half b.
Proof.
  intros hc h1 h2. unfold deconstruct_unit_prefixes.
  destruct (mapM_split w top hc h1) as [tp [e1 f1]]. rewrite e1. cbn [bind].
  destruct (mapM_split w bot hc h2) as [bp [e2 f2]]. rewrite e2. cbn [bind].
  destruct (prefix_loop_ok w top tp false (nq 1) hc f1) as [g1 [l1 [p1 s1]]]. rewrite l1. cbn [bind].
  destruct (prefix_loop_ok w bot bp true (nq 1 * g1) hc f2) as [g2 [l2 [p2 s2]]]. rewrite l2. cbn [bind].
  eexists _, _, _. split; [reflexivity|].
  cbn [nq Rnum]. replace (Q2R 1) with 1 by (unfold Q2R; cbn; field).
  split; [|split; [|split; eapply stripped_unprefixed; eauto]].
  - apply Rmult_lt_0_compat; [lra|]. apply Rinv_0_lt_compat. exact p2.
  - unfold msize. rewrite s1, s2. pose proof (usize_pos w (map snd bp)). field. lra.
Qed.

(** The result does not depend on the unit system; exponents are kept. *)
Lemma prefixes_exps top bot t b (f : R) : deconstruct_unit_prefixes top bot = Ok (t, b, f) ->
  map bexp t = map bexp top /\ map bexp b = map bexp bot.
Proof.
  unfold deconstruct_unit_prefixes.
  assert (k : forall l ps, mapM split_prefix l = Ok ps -> map bexp (map snd ps) = map bexp l).
  { induction l as [|x l IH]; cbn; intros ps h; [injection h as <-; reflexivity|].
    destruct (split_prefix x) as [p|] eqn:e; cbn in h; [|discriminate].
    destruct (mapM split_prefix l) as [ps'|] eqn:e'; cbn in h; [|discriminate].
    injection h as <-. cbn. rewrite (IH ps' eq_refl). f_equal. unfold split_prefix in e.
    destruct (String.eqb (bname x) "kg"); [injection e as <-; reflexivity|].
    destruct (get_prefix (bname x)); cbn in e; [|discriminate]. injection e as <-. reflexivity. }
  destruct (mapM split_prefix top) as [tp|] eqn:e1; cbn; [|discriminate].
  destruct (mapM split_prefix bot) as [bp|] eqn:e2; cbn; [|discriminate].
  destruct (prefix_loop false tp _); cbn; [|discriminate].
  destruct (prefix_loop true bp _); cbn; [|discriminate].
  intro h. injection h as <- <- _. auto.
Qed.
