(** * SignFacts: the sign of a conversion factor *)
From Coq Require Import String Ascii List ZArith QArith Qcanon Bool Reals Qreals Lra Lia.
From Verif Require Import Py Num UnitsData UnitsStruct Units Spec NumFacts SpecFacts StructFacts LawFacts PrefixSpec PassSpec ReadSpec ReadFacts ConvCases UnitConvSpec UnitErrSpec UnitConvFacts CommuteFacts SignSpec.
Import ListNotations.
Local Open Scope string_scope.
Local Open Scope list_scope.
Local Open Scope R_scope.

Definition flip (b : bool) (x : R) : R := if b then - x else x.
Lemma a_degreeb_iff m : a_degreeb m = true <-> a_degree m.
Proof.
  unfold a_degreeb, a_degree. rewrite orb_true_iff, existsb_exists, andb_true_iff, String.eqb_eq. split.
  - intros [(x & hx & e)|h]; [left; apply String.eqb_eq in e; congruence|right; exact h].
  - intros [h|h]; [left; eexists; split; [exact h|apply String.eqb_refl]|right; exact h].
Qed.
Lemma negative_iff q : negative q = true <-> QcR q < 0.
Proof.
  unfold negative, QcR, Qccompare. change (this (qc 0)) with 0%Q. replace 0 with (Q2R 0) by (unfold Q2R; cbn; lra).
  split.
  - destruct (Qcompare_spec (this q) 0) as [h|h|h]; try discriminate. intros _. apply Qlt_Rlt. exact h.
  - intro h. apply Rlt_Qlt in h. destruct (Qcompare_spec (this q) 0) as [h'|h'|h']; [|reflexivity|].
    + rewrite h' in h. destruct (Qlt_irrefl _ h).
    + destruct (Qlt_irrefl _ (Qlt_trans _ _ _ h h')).
Qed.
Lemma zero_iff q : QcR q = 0 <-> q = qc 0.
Proof. split; [intro h; apply QcR_inj; rewrite h, QcR_qc; reflexivity|intros ->; apply QcR_qc]. Qed.
Lemma rpower_pos x y : 0 < Rpower x y. Proof. apply exp_pos. Qed.
(** One unit. *)
Lemma number_sign m : stands (fst m) (snd m) <> None ->
  (~ a_degree m /\ 0 < number_of m) \/ (a_degree m /\ exists q, 0 < q /\ number_of m = q * QcR (ev (bexp (snd m)))).
Proof.
  destruct m as [k [n e]]. unfold number_of, a_degree. cbn [fst snd]. unfold stands. cbn [bname bexp].
  destruct (if k then None else dict_get opened_sizes n) as [q|] eqn:ho.
  { intros _. left. split; [|apply rpower_pos]. destruct k; [discriminate|]. intros [h|[h _]]; [|discriminate]. cbn in h. repeat (destruct h as [<-|h]; [discriminate|]). destruct h. }
  destruct (dict_get degree_sizes n) as [q|] eqn:hd.
  { intros _. right. pose proof (dict_get_in _ _ _ hd) as hi. cbn in hi. destruct hi as [hi|[hi|[hi|[hi|[]]]]]; injection hi as <- <-.
    - split; [left; cbn; tauto|]. exists (Q2R 1). split; [unfold Q2R; cbn; lra|reflexivity].
    - split; [right; split; [destruct k; [reflexivity|discriminate]|reflexivity]|]. exists (Q2R 1). split; [unfold Q2R; cbn; lra|reflexivity].
    - split; [left; cbn; tauto|]. eexists. split; [|reflexivity]. unfold Q2R; cbn; lra.
    - split; [left; cbn; tauto|]. eexists. split; [|reflexivity]. unfold Q2R; cbn; lra. }
  assert (hn : ~ (In n ["K"; "R"; "F"] \/ k = true /\ n = "C")).
  { intros [h|[_ h]]; [cbn in h; repeat (destruct h as [<-|h]; [discriminate|]); destruct h|subst n; discriminate]. }
  destruct (dict_get bulk_sizes n) as [[z q]|] eqn:hb.
  { destruct (Qc_eq_dec (ev e) (qc 1)); [|congruence]. intros _. left. split; [exact hn|].
    pose proof (dict_get_in _ _ _ hb) as hi. cbn in hi. destruct hi as [hi|[hi|[]]]; injection hi as <- <- <-; unfold Q2R; cbn; lra. }
  destruct (dict_get read_sizes n) as [[s q]|]; [|congruence]. intros _. left. split; [exact hn|apply rpower_pos].
Qed.
Lemma prod_sign L : (forall m, In m L -> stands (fst m) (snd m) <> None) -> (forall m, In m L -> a_degree m -> ev (bexp (snd m)) <> qc 0) ->
  0 < flip (Nat.odd (length (filter (fun m => a_degreeb m && negative (ev (bexp (snd m)))) L))) (fold_right Rmult 1 (map number_of L)).
Proof.
  induction L as [|m L IH]; intros h1 h2; [cbn; lra|].
  specialize (IH (fun x hx => h1 x (or_intror hx)) (fun x hx => h2 x (or_intror hx))). cbn [map fold_right filter].
  set (P := fold_right Rmult 1 (map number_of L)) in *. set (c := length (filter _ L)) in *.
  destruct (number_sign m (h1 m (or_introl eq_refl))) as [[hd hp]|[hd (q & hq & ->)]].
  - replace (a_degreeb m) with false by (symmetry; destruct (a_degreeb m) eqn:e; [apply a_degreeb_iff in e; contradiction|reflexivity]). cbn [andb]. fold c.
    destruct (Nat.odd c); cbn [flip] in *; [rewrite Ropp_mult_distr_r|]; apply Rmult_lt_0_compat; assumption.
  - pose proof (proj2 (a_degreeb_iff m) hd) as e. rewrite e. cbn [andb].
    assert (hz : QcR (ev (bexp (snd m))) <> 0) by (rewrite zero_iff; apply h2; [left; reflexivity|exact hd]).
    destruct (negative (ev (bexp (snd m)))) eqn:hg.
    + apply negative_iff in hg. cbn [length]. fold c. rewrite Nat.odd_succ, <- Nat.negb_odd. set (x := QcR _) in *.
      assert (0 < q * - x) by (apply Rmult_lt_0_compat; lra). destruct (Nat.odd c); cbn [negb flip] in *.
      * replace (q * x * P) with (q * - x * - P) by ring. apply Rmult_lt_0_compat; assumption.
      * replace (- (q * x * P)) with (q * - x * P) by ring. apply Rmult_lt_0_compat; assumption.
    + fold c. set (x := QcR _) in *. assert (hx : 0 < x).
      { destruct (Rtotal_order x 0) as [h|[h|h]]; [|contradiction|exact h]. apply negative_iff in h. congruence. }
      assert (0 < q * x) by (apply Rmult_lt_0_compat; lra). destruct (Nat.odd c); cbn [flip] in *; [rewrite Ropp_mult_distr_r|]; apply Rmult_lt_0_compat; assumption.
Qed.
Lemma understood_stands l : understood l -> forall m, In m (marked (rooted l)) -> stands (fst m) (snd m) <> None.
Proof. intros [_ h] [k x] hm. apply h, hm. Qed.
Lemma seen_sign l : understood l -> ~ lost l -> 0 < flip (Nat.odd (reversals l)) (seen l).
Proof.
  intros hu hl. pose proof (prod_sign (marked (rooted l)) (understood_stands l hu)) as h.
  assert (h' : forall m, In m (marked (rooted l)) -> a_degree m -> ev (bexp (snd m)) <> qc 0) by (intros m hm hd e; apply hl; exists m; auto).
  specialize (h h'). unfold seen. pose proof (usize_pos pscale l) as hp. fold (reversals l) in h. destruct (Nat.odd (reversals l)); cbn [flip] in *; [rewrite Ropp_mult_distr_r|]; apply Rmult_lt_0_compat; assumption.
Qed.
Lemma seen_lost l : understood l -> (lost l <-> seen l = 0).
Proof.
  intro hu. split.
  - intros (m & hm & hd & e). destruct (Req_dec (seen l) 0) as [h|h]; [exact h|]. exfalso. apply (proj1 (seen_nonzero l) h m hm).
    destruct (number_sign m (understood_stands l hu m hm)) as [[hn _]|[_ (q & _ & ->)]]; [contradiction|]. rewrite e, QcR_qc. ring.
  - intro h. destruct (in_dec Req_EM_T 0 (map number_of (marked (rooted l)))) as [hi|hi].
    + apply in_map_iff in hi. destruct hi as (m & e & hm). destruct (number_sign m (understood_stands l hu m hm)) as [[_ hp]|[hd (q & hq & e')]]; [lra|].
      exists m. split; [exact hm|]. split; [exact hd|]. rewrite e' in e. apply zero_iff. apply Rmult_integral in e. destruct e; [lra|assumption].
    + exfalso. revert h. apply seen_nonzero. intros k hk e. apply hi. apply in_map_iff. exists k. auto.
Qed.
Lemma flip_mul x y a b : 0 < flip a x -> 0 < flip b y -> 0 < flip (xorb a b) (x * y).
Proof. destruct a, b; cbn [flip xorb]; intros h1 h2; pose proof (Rmult_lt_0_compat _ _ h1 h2) as h; lra. Qed.
Lemma flip_inv x a : 0 < flip a x -> 0 < flip a (/ x).
Proof. destruct a; cbn [flip]; intro h; [|apply Rinv_0_lt_compat, h]. replace (- / x) with (/ - x) by (field; lra). apply Rinv_0_lt_compat, h. Qed.
Lemma flip_order k b x y : 0 < flip b k -> (x * k < y * k <-> if b then y < x else x < y).
Proof.
  destruct b; cbn [flip]; intro h; split; intro h'.
  - apply (Rmult_lt_reg_r (- k)); [exact h|lra].
  - pose proof (Rmult_lt_compat_r _ _ _ h h'). lra.
  - apply (Rmult_lt_reg_r k); assumption.
  - apply Rmult_lt_compat_r; assumption.
Qed.
Lemma sign_exact (a b p q : multi_obj R) s pt pb : parse_units s = Ok (pt, pb) -> mtop b = mtop a -> mbot b = mbot a ->
  multi_convert_to tables0 a s = Ok p -> multi_convert_to tables0 b s = Ok q ->
  (lost (mtop a) -> mv p = 0 /\ mv q = 0) /\
  (~ lost (mtop a) -> (mv p < mv q <-> if Nat.odd (reversals (mtop a) + reversals (mbot a) + reversals pt + reversals pb) then mv b < mv a else mv a < mv b)).
Proof.
  intros hp ht hb ha hq. apply (convert_exact _ _ _ _ _ hp) in ha, hq. rewrite ht, hb in hq.
  destruct ha as (u1 & u2 & u3 & u4 & z1 & z2 & z3 & _ & ->). destruct hq as (_ & _ & _ & _ & _ & _ & _ & _ & ->). cbn [mv]. split.
  - intro h. apply (seen_lost _ u1) in h. unfold seen_size. rewrite h. split; unfold Rdiv; ring.
  - intro h. assert (n1 : ~ lost (mbot a)) by (rewrite (seen_lost _ u2); exact z1). assert (n2 : ~ lost pt) by (rewrite (seen_lost _ u3); exact z2). assert (n3 : ~ lost pb) by (rewrite (seen_lost _ u4); exact z3).
    apply flip_order. unfold seen_size. replace (seen (mtop a) / seen (mbot a) / (seen pt / seen pb)) with (seen (mtop a) * / seen (mbot a) * / seen pt * seen pb) by (field; auto).
    rewrite !Nat.odd_add. repeat apply flip_mul; try apply flip_inv; apply seen_sign; assumption.
Qed.
Lemma marked_in l m : In m (marked l) -> In (snd m) l.
Proof.
  revert m. assert (h : forall n l, (length l <= n)%nat -> forall m, In m (marked l) -> In (snd m) l).
  { induction n as [|n IH]; intros [|x l'] hl m hm; cbn in hl; try lia; try destruct hm. cbn [marked] in hm. destruct (is_derived x).
    - destruct l' as [|y l'']; [destruct hm as [<-|[]]; left; reflexivity|]. cbn in hl. destruct hm as [<-|[<-|hm]]; [left; reflexivity|right; left; reflexivity|]. right. right. apply IH; [lia|exact hm].
    - destruct hm as [<-|hm]; [left; reflexivity|]. right. apply IH; [lia|exact hm]. }
  apply (h (length l)). lia.
Qed.
Lemma rooted_in l x : In x (rooted l) -> exists y, In y l /\ bexp y = bexp x.
Proof. unfold rooted. intro h. apply in_map_iff in h. destruct h as (y & <- & hy). exists y. auto. Qed.
Lemma positive_plain l : (forall x, In x l -> (qc 0 < ev (bexp x))%Qc) -> ~ lost l /\ reversals l = 0%nat.
Proof.
  intro h. assert (h' : forall m, In m (marked (rooted l)) -> 0 < QcR (ev (bexp (snd m)))).
  { intros m hm. apply marked_in, rooted_in in hm. destruct hm as (y & hy & <-). specialize (h y hy). unfold QcR. replace 0 with (Q2R 0) by (unfold Q2R; cbn; lra). apply Qlt_Rlt, h. }
  split.
  - intros (m & hm & _ & e). specialize (h' m hm). rewrite e, QcR_qc in h'. lra.
  - unfold reversals. induction (marked (rooted l)) as [|m L IH]; [reflexivity|]. cbn [filter].
    replace (negative (ev (bexp (snd m)))) with false; [rewrite andb_false_r; apply IH; intros x hx; apply h'; right; exact hx|].
    symmetry. destruct (negative _) eqn:e; [|reflexivity]. apply negative_iff in e. specialize (h' m (or_introl eq_refl)). lra.
Qed.
Lemma sign_plain (a b p q : multi_obj R) s pt pb : parse_units s = Ok (pt, pb) -> mtop b = mtop a -> mbot b = mbot a ->
  (forall x, In x (mtop a ++ mbot a ++ pt ++ pb) -> (qc 0 < ev (bexp x))%Qc) ->
  multi_convert_to tables0 a s = Ok p -> multi_convert_to tables0 b s = Ok q -> (mv p < mv q <-> mv a < mv b).
Proof.
  intros hp ht hb hx ha hq. destruct (sign_exact a b p q s pt pb hp ht hb ha hq) as [_ h].
  destruct (positive_plain (mtop a)) as [l1 r1]; [intros x h'; apply hx; rewrite !in_app_iff; tauto|]. destruct (positive_plain (mbot a)) as [_ r2]; [intros x h'; apply hx; rewrite !in_app_iff; tauto|].
  destruct (positive_plain pt) as [_ r3]; [intros x h'; apply hx; rewrite !in_app_iff; tauto|]. destruct (positive_plain pb) as [_ r4]; [intros x h'; apply hx; rewrite !in_app_iff; tauto|].
  specialize (h l1). rewrite r1, r2, r3, r4 in h. exact h.
Qed.

Lemma sign_equal (a b p q : multi_obj R) s pt pb : parse_units s = Ok (pt, pb) -> mtop b = mtop a -> mbot b = mbot a -> ~ lost (mtop a) ->
  multi_convert_to tables0 a s = Ok p -> multi_convert_to tables0 b s = Ok q -> py_eq (VMulti p) (VMulti q) = py_eq (VMulti a) (VMulti b).
Proof.
  intros hp ht hb hl ha hq. destruct (sign_exact a b p q s pt pb hp ht hb ha hq) as [_ h1]. specialize (h1 hl).
  assert (hl' : ~ lost (mtop b)) by (rewrite ht; exact hl). destruct (sign_exact b a q p s pt pb hp (eq_sym ht) (eq_sym hb) hq ha) as [_ h2]. specialize (h2 hl'). rewrite ht, hb in h2.
  apply (convert_exact _ _ _ _ _ hp) in ha, hq. destruct ha as (_ & _ & _ & _ & _ & _ & _ & _ & ->). destruct hq as (_ & _ & _ & _ & _ & _ & _ & _ & ->).
  cbn [py_eq]. unfold multi_eq. cbn [mc mv mtop mbot] in *. rewrite ht, hb in *. rewrite !set_eqb_refl, !andb_true_r. f_equal.
  set (x := mv a * _) in *. set (y := mv b * _) in *. cbn [neqb Rnum]. unfold Reqb.
  destruct (Req_EM_T x y) as [e|e], (Req_EM_T (mv a) (mv b)) as [e'|e']; try reflexivity; exfalso.
  - assert (n1 : ~ (x < y)) by lra. assert (n2 : ~ (y < x)) by lra. rewrite h1 in n1. rewrite h2 in n2. destruct (Rtotal_order (mv a) (mv b)) as [z|[z|z]]; [|exact (e' z)|]; destruct (Nat.odd _); auto.
  - apply e. unfold x, y. rewrite e'. reflexivity.
Qed.

(** ** Units *)
Lemma factor_pos c n t : In n (table_names c) -> In t (table_names c) -> 0 < Q2R (K c n t).
Proof.
  intros hn ht. destruct (all_pairs_ok (fun c n t => negb (Qle_bool (K c n t) 0)) table_names c n t) as [_ [_ l3]]; [vm_compute; reflexivity|names_classes|exact hn|exact ht|].
  apply negb_true_iff in l3. replace 0 with (Q2R 0) by (unfold Q2R; cbn; lra). apply Qlt_Rlt. apply Qnot_le_lt. intro h. apply Qle_bool_iff in h. congruence.
Qed.
Lemma unit_order c n t (x y : R) u w p q : In n (table_names c) -> In t (table_names c) -> simple u c x n -> simple w c y n ->
  unit_convert_to tables0 u t = Ok p -> unit_convert_to tables0 w t = Ok q -> (uv p < uv q <-> x < y).
Proof.
  intros hn ht hu hw hp hq. destruct (table_lin c n hn) as [qn l1]. destruct (table_lin c t ht) as [qt l2].
  destruct (simple_obj _ _ _ _ hu) as [e [-> he]]. destruct (simple_obj _ _ _ _ hw) as [e' [-> he']].
  destruct (convert_lin c n t x e qn qt l1 l2 he) as (r & h1 & h2). destruct (convert_lin c n t y e' qn qt l1 l2 he') as (r' & h3 & h4).
  rewrite hp in h1. injection h1 as <-. rewrite hq in h3. injection h3 as <-. destruct h2 as (_ & -> & _). destruct h4 as (_ & -> & _).
  apply (flip_order _ false). cbn [flip]. apply factor_pos; assumption.
Qed.
Lemma temp_order s t (x y : R) u w p q : simple u Temperature x (tname s) -> simple w Temperature y (tname s) ->
  unit_convert_to tables0 u (tname t) = Ok p -> unit_convert_to tables0 w (tname t) = Ok q -> (uv p < uv q <-> x < y).
Proof.
  intros hu hw hp hq. destruct (temp_all s t x u hu) as (r & a & h1 & (_ & h2 & _) & k1). destruct (temp_all s t y w hw) as (r' & b & h3 & (_ & h4 & _) & k2).
  rewrite hp in h1. injection h1 as <-. rewrite hq in h3. injection h3 as <-. rewrite h2, h4. clear - k1 k2. destruct s, t; cbn [kelvin] in *; split; lra.
Qed.

(** ** Cases *)
Definition ak6 : multi_obj R := MO MMulti 6 [BU "A" (eint 1); BU "K" (eint (-1))] nil.
Definition mk0 : multi_obj R := MO MMulti 5 [BU "m" (eflt (qc 1)); BU "K" (eflt (qc 0))] nil.
Lemma reversed : exists p q, multi_convert_to tables0 ak "A/K" = Ok p /\ multi_convert_to tables0 ak6 "A/K" = Ok q /\ mv ak < mv ak6 /\ mv q < mv p.
Proof.
  assert (hc : exists p, multi_convert_to tables0 ak "A/K" = Ok p) by (eexists; exact ak_convert).
  destruct hc as (p & hp). destruct (convert_linear tables0 MMulti 5 _ nil "A/K" p hp) as (k & pt & pb & _ & hk). exists p, (MO MMulti (6 * k) pt pb). split; [exact hp|]. pose proof (hk MMulti 6) as hq. split; [exact hq|].
  split; [cbn; lra|]. destruct (sign_exact ak6 ak _ p "A/K" ak_t ak_b ak_parse eq_refl eq_refl hq hp) as [_ h]. apply h; [|cbn; lra].
  intros (m & hm & hd & e). change (marked (rooted (mtop ak6))) with [(false, BU "A" (eint 1)); (false, BU "K" (eint (-1)))] in hm. destruct hm as [<-|[<-|[]]]; discriminate e.
Qed.
Lemma zeroed : mk_multi MMulti 5 "m*K^0" = Ok mk0 /\ exists r, multi_convert_to tables0 mk0 "m" = Ok r /\ mv r = 0.
Proof.
  assert (hp : parse_units "m" = Ok ([BU "m" (eflt (qc 1))], nil)) by (vm_compute; repeat (f_equal; try (apply Qc_is_canon; reflexivity))).
  split; [vm_compute; repeat (f_equal; try (apply Qc_is_canon; reflexivity))|].
  assert (hc : exists r, multi_convert_to tables0 mk0 "m" = Ok r).
  { apply (convert_iff mk0 "m" _ _ hp). assert (n : understood nil) by (split; [intros x []|intros k x []]). assert (z : seen nil <> 0) by (apply seen_nonzero; intros k []).
    refine (conj _ (conj n (conj _ (conj n (conj z (conj _ (conj z _))))))).
    - apply known_understood; reflexivity.
    - apply known_understood; reflexivity.
    - apply seen_nonzero. intros k [<-|[]]. unfold number_of, stands. cbn. pose proof (rpower_pos (Q2R 1) (QcR (qc 1))). lra.
    - intro c. destruct c; apply Qc_is_canon; reflexivity. }
  destruct hc as (r & hr). exists r. split; [exact hr|]. apply (sign_exact mk0 mk0 r r "m" _ _ hp eq_refl eq_refl hr hr).
  exists (false, BU "K" (eflt (qc 0))). split; [right; left; reflexivity|]. split; [left; cbn; tauto|reflexivity].
Qed.
Lemma sign_case : parse_units "ft/s" = Ok ([BU "ft" (eflt (qc 1))], [BU "s" (eflt (qc 1))]) /\
  (forall x, In x (mtop speed_a ++ mbot speed_a ++ [BU "ft" (eflt (qc 1))] ++ [BU "s" (eflt (qc 1))]) -> (qc 0 < ev (bexp x))%Qc) /\
  (exists p, multi_convert_to tables0 speed_a "ft/s" = Ok p) /\ exists q, multi_convert_to tables0 speed_b "ft/s" = Ok q.
Proof.
  split; [vm_compute; repeat (f_equal; try (apply Qc_is_canon; reflexivity))|]. split.
  - intros x hx. cbn in hx. repeat (destruct hx as [<-|hx]; [reflexivity|]). destruct hx.
  - destruct commute_case as (_ & _ & _ & (p & hp) & _). split; [exists p; exact hp|].
    destruct (convert_linear tables0 MMulti 3 _ _ _ p hp) as (k & pt & pb & _ & hk). eexists. apply (hk MMulti 4).
Qed.
