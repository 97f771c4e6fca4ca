(** * FactorFacts: the prefix factor in closed form, and what is lost with it *)
From Coq Require Import String Ascii List ZArith QArith Qcanon Bool Reals Qreals Lia Lra.
From Verif Require Import Py Num UnitsData UnitsStruct Units NumFacts Spec SpecFacts StructFacts CombineFacts CancelFacts
  ExpandFacts PrefixFacts SimplifyFacts OpFacts NamesFacts ClosureFacts.
Import ListNotations.
Local Open Scope string_scope.
Local Open Scope list_scope.
Local Open Scope R_scope.

Arguments pscale : simpl never.
Ltac dec_in i := cbv beta iota; match goal with |- context [in_dec ?a ?b ?c] => destruct (in_dec a b c) as [i|i] end.
Lemma pscale_pos n : 0 < pscale n.
Proof.
  unfold pscale. destruct n as [|c [|d n]]; try lra. dec_in i; [lra|].
  repeat match goal with |- context [Ascii.eqb ?a ?b] => destruct (Ascii.eqb a b) end; lra.
Qed.

Lemma split_scale x p y : split_prefix x = Ok (p, y) ->
  bexp y = bexp x /\
  ((p = EmptyString /\ pscale (bname x) = 1 /\ y = x) \/
   (p <> EmptyString /\ exists q, dict_get prefix_factors p = Some q /\ (0 < q)%Q /\ Q2R q = pscale (bname x) /\
      bname x = p +++ bname y)).
Proof.
  unfold split_prefix. destruct x as [n e]. cbn [bname bexp].
  destruct (String.eqb n "kg") eqn:k.
  - apply String.eqb_eq in k. subst. intro h. injection h as <- <-. split; [reflexivity|]. left. split; [reflexivity|].
    split; reflexivity.
  - apply String.eqb_neq in k. unfold get_prefix. destruct n as [|c rest]; [discriminate|].
    destruct (String.eqb rest EmptyString) eqn:e0.
    { apply String.eqb_eq in e0. subst. cbn. intro h. injection h as <- <-. split; [reflexivity|]. left. auto. }
    apply String.eqb_neq in e0. cbn [orb].
    destruct (mem_str (String c EmptyString) ["m"; "c"; "d"; "k"; "M"]) eqn:e1.
    + cbn [negb orb]. destruct (mem_str (String c rest) ["min"; "cP"; "mol"]) eqn:e2.
      * cbn. intro h. injection h as <- <-. split; [reflexivity|]. left. split; [reflexivity|]. split; [|reflexivity].
        apply mem_str_In in e2. unfold pscale. destruct rest as [|d r]; [reflexivity|].
        dec_in i; [reflexivity|]. exfalso. apply i. cbn in *. tauto.
      * cbn [bind fst snd]. intro h. injection h as <- <-. split; [reflexivity|]. right. split; [discriminate|].
        assert (ni : ~ In (String c rest) ["min"; "cP"; "mol"; "kg"]).
        { intro i. assert (h : mem_str (String c rest) ["min"; "cP"; "mol"] = true); [|congruence].
          apply mem_str_In. cbn in *. intuition congruence. }
        unfold pscale. destruct rest as [|d r]; [congruence|].
        dec_in i; [contradiction|].
        apply mem_str_In in e1. cbn in e1.
        destruct e1 as [h|[h|[h|[h|[h|[]]]]]]; injection h as <-; cbn; eexists; (split; [reflexivity|]);
          (split; [reflexivity|]); (split; [unfold Q2R; cbn; field|reflexivity]).
    + cbn [negb orb]. cbn [bind fst snd]. intro h. injection h as <- <-. split; [reflexivity|]. left. split; [reflexivity|].
      split; [|reflexivity]. unfold pscale. destruct rest as [|d r]; [reflexivity|].
      dec_in i; [reflexivity|].
      assert (nm : forall a, In a ["m"; "c"; "d"; "k"; "M"]%char -> Ascii.eqb c a = false).
      { intros a ha. apply Ascii.eqb_neq. intros ->. cbn in e1.
        cbn in ha. destruct ha as [<-|[<-|[<-|[<-|[<-|[]]]]]]; discriminate. }
      rewrite !nm by (cbn; tauto). reflexivity.
Qed.

Lemma loop_scale inv l ps (f : R) : mapM split_prefix l = Ok ps ->
  prefix_loop inv ps f = Ok (f * (if inv then / usize pscale l else usize pscale l)).
Proof.
  revert ps f. induction l as [|x l IH]; intros ps f h.
  - injection h as <-. cbn. f_equal. destruct inv; field.
  - cbn [mapM] in h. apply bind_ok in h. destruct h as [[p y] [e h]]. apply bind_ok in h. destruct h as [ps' [e' h]].
    injection h as <-. cbn [prefix_loop usize]. apply split_scale in e. destruct e as [he e].
    pose proof (usize_pos pscale l) as up.
    destruct e as [[-> [hp ->]]|[hne [q [hd [hq [hp hn]]]]]].
    + cbn [String.eqb]. rewrite (IH ps' f e'). rewrite hp, Rpower_one. f_equal. destruct inv; field. lra.
    + rewrite (proj2 (String.eqb_neq p EmptyString) hne), hd, he.
      assert (qp : 0 < Q2R q) by (apply Q2R_pos; exact hq).
      rewrite <- hp. set (k := QcR (ev (bexp x))).
      assert (step : (let* b := (if inv then pydiv (nq 1) (nq q) else Ok (nq q)) in npow b (ev (bexp x)))
                     = Ok (if inv then / Rpower (Q2R q) k else Rpower (Q2R q) k)).
      { destruct inv.
        - cbn [nq Rnum]. rewrite pydiv_ok by lra. cbn [bind npow Rnum].
          replace (Q2R 1) with 1 by (unfold Q2R; cbn; field).
          replace (1 / Q2R q) with (/ Q2R q) by (field; lra).
          rewrite Rpowq_pos by (apply Rinv_0_lt_compat; exact qp).
          fold k. rewrite Rpower_Rinv by exact qp. reflexivity.
        - cbn [bind npow Rnum nq]. apply Rpowq_pos. exact qp. }
      rewrite step. rewrite (IH ps' _ e'). cbn [nmul Rnum]. f_equal. pose proof (Rpower_pos (Q2R q) k).
      destruct inv; field; lra.
Qed.

(** The factor is the product of the prefix sizes, for any names. *)
Lemma factor_value top bot t b (f : R) : deconstruct_unit_prefixes top bot = Ok (t, b, f) -> f = msize pscale top bot.
Proof.
  unfold deconstruct_unit_prefixes. intro h.
  apply bind_ok in h. destruct h as [tp [e1 h]]. apply bind_ok in h. destruct h as [bp [e2 h]].
  rewrite (loop_scale false top tp _ e1) in h. cbn [bind] in h. rewrite (loop_scale true bot bp _ e2) in h. cbn [bind] in h.
  injection h as _ _ <-. cbn [nq Rnum]. replace (Q2R 1) with 1 by (unfold Q2R; cbn; field).
  unfold msize. unfold Rdiv. ring.
Qed.
Lemma reduce_value ct cb top bot t b (f : R) : reduce ct cb top bot = Ok (t, b, f) -> f = msize pscale top bot.
Proof.
  unfold reduce. intro h. apply bind_ok in h. destruct h as [[[t1 b1] f1] [e h]]. apply bind_ok in h. destruct h as [r [e1 h]].
  injection h as _ _ <-. apply factor_value in e. exact e.
Qed.
(** Only an empty name makes prefix removal fail. *)
Lemma prefixes_total top bot : (forall x, In x (top ++ bot) -> bname x <> EmptyString) ->
  exists t b, deconstruct_unit_prefixes top bot = Ok (t, b, msize pscale top bot).
Proof.
  intro h.
  assert (k : forall l, (forall x, In x l -> bname x <> EmptyString) -> exists ps, mapM split_prefix l = Ok ps).
  { clear. induction l as [|x l IH]; intro h; [eexists; reflexivity|].
    destruct IH as [ps e]; [intros y hy; apply h; right; exact hy|]. cbn [mapM].
    assert (exists p, split_prefix x = Ok p) as [p ep].
    { unfold split_prefix. destruct (String.eqb (bname x) "kg"); [eexists; reflexivity|].
      unfold get_prefix. destruct (bname x) as [|c r] eqn:eb; [exfalso; exact (h x (or_introl eq_refl) eb)|].
      destruct (_ || _)%bool; eexists; reflexivity. }
    rewrite ep. cbn [bind]. rewrite e. eexists. reflexivity. }
  destruct (k top) as [tp e1]; [intros x hx; apply h, in_or_app; auto|].
  destruct (k bot) as [bp e2]; [intros x hx; apply h, in_or_app; auto|].
  destruct (deconstruct_unit_prefixes (T := R) top bot) as [[[t b] f]|e] eqn:d.
  - rewrite (factor_value _ _ _ _ _ d). eauto.
  - exfalso. unfold deconstruct_unit_prefixes in d. rewrite e1, e2 in d. cbn [bind] in d.
    rewrite (loop_scale false top tp _ e1) in d. cbn [bind] in d. rewrite (loop_scale true bot bp _ e2) in d. discriminate.
Qed.

(** MultiUnit * Unit, Unit / MultiUnit: the result is off by exactly the product
    of the prefix sizes. *)
Lemma mul_mu_scale (a : multi_obj R) (u : unit_obj R) : adm_multi a -> admissible (un u) ->
  exists r, py_mul (VMulti a) (VUnit u) = Ok r /\ py_mul (VUnit u) (VMulti a) = Ok r /\
  forall w x y s z, coherent w -> qty w (VMulti a) = Some x -> qty w (VUnit u) = Some y ->
    s = msize pscale (mtop a) (mbot a) * Rpower (pscale (un u)) (QcR (ev (ue u))) -> qty w r = Some z -> s * z = x * y.
Proof.
  intros [ha1 ha2] hu. cbn [py_mul multi_mul unit_mul].
  destruct (reduce_ok true true (mtop a ++ [BU (un u) (ue u)]) (mbot a)) as [t [bt [f [e [hf hm]]]]];
    [apply adm_app; auto using adm_one|auto|]. pose proof (reduce_value _ _ _ _ _ _ _ e) as fv. rewrite e. cbn [bind].
  eexists. split; [reflexivity|]. split; [reflexivity|]. intros w x y s z hw hx hy hs hz.
  cbn [qty] in hx, hy. injection hx as <-. injection hy as <-.
  rewrite qty_shape_mul in hz by apply (co_pos w hw). injection hz as <-. cbn [nmul Rnum]. specialize (hm w hw).
  assert (sz : forall w', msize w' (mtop a ++ [BU (un u) (ue u)]) (mbot a) = msize w' (mtop a) (mbot a) * Rpower (w' (un u)) (QcR (ev (ue u)))).
  { intro w'. unfold msize. rewrite usize_app. cbn [usize bname bexp]. pose proof (usize_pos w' (mbot a)). field. lra. }
  rewrite sz in hm, fv. rewrite hs, <- fv.
  replace (f * (uv u * mv a * msize w t bt)) with (uv u * mv a * (f * msize w t bt)) by ring. rewrite hm. ring.
Qed.
Lemma div_um_scale (a : multi_obj R) (u : unit_obj R) : adm_multi a -> admissible (un u) -> mv a <> 0 ->
  exists r, py_div (VUnit u) (VMulti a) = Ok r /\
  forall w x y s z, coherent w -> qty w (VUnit u) = Some x -> qty w (VMulti a) = Some y ->
    s = Rpower (pscale (un u)) (QcR (ev (ue u))) / msize pscale (mtop a) (mbot a) -> qty w r = Some z -> s * z = x / y.
Proof.
  intros [ha1 ha2] hu h0. cbn [py_div unit_div multi_rdiv].
  destruct (reduce_ok true false (mbot a ++ [BU (un u) (ue u)]) (mtop a)) as [t [bt [f [e [hf hm]]]]];
    [apply adm_app; auto using adm_one|auto|]. pose proof (reduce_value _ _ _ _ _ _ _ e) as fv. rewrite e. cbn [bind].
  rewrite pydiv_ok by exact h0. cbn [bind].
  eexists. split; [reflexivity|]. intros w x y s z hw hx hy hs hz.
  cbn [qty] in hx, hy. injection hx as <-. injection hy as <-.
  rewrite qty_shape_div in hz by apply (co_pos w hw). injection hz as <-. specialize (hm w hw).
  assert (sz : forall w', msize w' (mbot a ++ [BU (un u) (ue u)]) (mtop a) = Rpower (w' (un u)) (QcR (ev (ue u))) / msize w' (mtop a) (mbot a)).
  { intro w'. unfold msize. rewrite usize_app. cbn [usize bname bexp]. pose proof (usize_pos w' (mbot a)). pose proof (usize_pos w' (mtop a)).
    field. lra. }
  rewrite sz in hm, fv. rewrite hs, <- fv. pose proof (msize_pos w (mtop a) (mbot a)).
  replace (f * (uv u / mv a * msize w t bt)) with (uv u / mv a * (f * msize w t bt)) by ring. rewrite hm. field. lra.
Qed.

(** ** Powers with an integer exponent, for values of either sign *)
Lemma qc_this z : this (qc z) = inject_Z z.
Proof.
  unfold qc, Q2Qc, this, Qred, inject_Z. pose proof (Z.ggcd_correct_divisors z 1) as c. pose proof (Z.ggcd_gcd z 1) as g.
  destruct (Z.ggcd z 1) as [k [a b]]. cbn [fst] in g. rewrite Z.gcd_1_r in g. subst k. cbn [snd].
  destruct c as [c1 c2]. rewrite Z.mul_1_l in c1, c2. subst. reflexivity.
Qed.
Lemma Rpowq_int (x : R) z : (x <> 0 \/ (0 <= z)%Z) -> Rpowq x (qc z) = Ok (powerRZ x z).
Proof.
  intro h. unfold Rpowq, is_int. rewrite qc_this. cbn [inject_Z Qden Qnum Pos.eqb].
  replace (Reqb x 0 && Qcltb (qc z) (qc 0)) with false; [reflexivity|]. symmetry. apply andb_false_iff.
  destruct h as [h|h]; [left; apply Reqb_false; exact h|right]. apply Qcltb_ge. rewrite !QcR_qc. apply IZR_le. exact h.
Qed.

Lemma powerRZ_scale (v s : R) z : 0 < s -> (v <> 0 \/ (0 <= z)%Z) ->
  powerRZ v z * Rpower s (IZR z) = powerRZ (v * s) z.
Proof.
  intros hs h. rewrite <- powerRZ_Rpower by exact hs. destruct (Req_dec v 0) as [->|hv].
  - destruct h as [h|h]; [lra|]. rewrite Rmult_0_l. destruct (Z.eq_dec z 0) as [->|hz]; [cbn; ring|].
    rewrite <- (Z2Nat.id z) by exact h. rewrite <- !pow_powerRZ. rewrite pow_i by lia. ring.
  - symmetry. apply powerRZ_mult.
Qed.

Lemma pow_m_int (a : multi_obj R) z t : (mv a <> 0 \/ (0 <= z)%Z) ->
  exists r, py_pow (VMulti a) (Ex t (qc z)) = Ok r /\ forall w x, coherent w -> qty w (VMulti a) = Some x -> qty w r = Some (powerRZ x z).
Proof.
  intro h0. cbn [py_pow multi_pow].  unfold multi_pow. set (k := Ex t (qc z)).
  destruct (reduce_tail_ok true true (scale_half k (mtop a)) (scale_half k (mbot a))) as [t' [b [e l]]].
  rewrite e. cbn [bind npow Rnum]. unfold k at 1. cbn [ev]. rewrite Rpowq_int by exact h0. cbn [bind fst snd].
  eexists. split; [reflexivity|]. intros w x hw hx. cbn [qty mv mtop mbot] in *. injection hx as <-. f_equal.
  rewrite (lin_msize w _ _ _ _ hw l). rewrite <- powerRZ_scale by (auto using msize_pos). f_equal.
  rewrite !msize_lin. change (scale_half k (mtop a)) with (scaled k (mtop a)).
  change (scale_half k (mbot a)) with (scaled k (mbot a)). rewrite !lin_scaled. unfold k. cbn [ev]. rewrite QcR_qc.
  unfold Rpower. rewrite ln_exp. f_equal. ring.
Qed.
Lemma pow_u_int (a : unit_obj R) z t : built a -> (uv a <> 0 \/ (0 <= z)%Z) ->
  exists r, py_pow (VUnit a) (Ex t (qc z)) = Ok (VUnit r) /\ uc r = uc a /\ un r = un a /\ forall w x, positive w -> qty w (VUnit a) = Some x -> qty w (VUnit r) = Some (powerRZ x z).
Proof.
  intros hb h0. cbn [py_pow]. unfold unit_pow. cbn [npow Rnum ev]. rewrite Rpowq_int by exact h0. cbn [bind].
  rewrite rebuild by exact hb. cbn. eexists. split; [reflexivity|]. split; [reflexivity|]. split; [reflexivity|].
  intros w x hw hx. cbn [qty uv un ue] in *. injection hx as <-. f_equal. rewrite <- powerRZ_scale; [|apply exp_pos|exact h0]. f_equal.
  cbn [ev emul]. rewrite QcR_mult, QcR_qc. unfold Rpower. rewrite ln_exp. f_equal. ring.
Qed.
