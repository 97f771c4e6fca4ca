(** * RegisterExact: what a unit registered from another one converts to *)
From Coq Require Import String Ascii List ZArith QArith Qcanon Bool Reals Qreals Lia Lra.
From Verif Require Import Py Num UnitsData UnitsStruct Units NumFacts Spec SpecFacts StructFacts ExpandFacts PrefixFacts FactorFacts
  LawFacts WitnessFacts TextFacts UnitConvSpec UnitConvFacts UnitConvMore RegisterFacts UnitErrSpec UnitConvExact.
Import ListNotations.
Local Open Scope string_scope.
Local Open Scope list_scope.
Local Open Scope R_scope.

Lemma lin_factors c n a b s : In n (table_names c) -> dict_get (lin_table c) n = Some (a, b) -> standard c = Some s -> n <> s ->
  Q2R a = si n / si s * Q2R (out_of n) /\ Q2R b = si s / si n * Q2R (into n).
Proof.
  intros hn k1 hs hne. assert (es : s = standard_name c) by (destruct (standard_lin c n _ k1) as [z _]; congruence). subst s.
  destruct (standard_lin c n _ k1) as [_ [[sa sb] ks]].
  assert (ins : In (standard_name c) (table_names c)) by (destruct c; try discriminate; cbn; tauto).
  destruct (K_errors c n (standard_name c) hn ins hne) as [_ [_ e1]]. destruct (K_errors c (standard_name c) n ins hn (fun z => hne (eq_sym z))) as [_ [_ e2]].
  assert (one : out_of (standard_name c) = 1%Q /\ into (standard_name c) = 1%Q /\ sa = 1%Q /\ sb = 1%Q).
  { destruct c; try discriminate; cbn in ks; injection ks as <- <-; repeat split. }
  destruct one as [o1 [o2 [-> ->]]]. rewrite o2 in e1. rewrite o1 in e2. replace (Q2R 1) with 1 in e1, e2 by (q2r; lra). rewrite Rmult_1_r in e1. rewrite Rmult_1_l in e2.
  unfold K in e1, e2. rewrite k1, ks in e1, e2.
  replace (String.eqb n (standard_name c)) with false in e1 by (symmetry; apply String.eqb_neq; exact hne).
  replace (String.eqb (standard_name c) n) with false in e2 by (symmetry; apply String.eqb_neq; congruence).
  rewrite Q2R_mult in e1, e2. replace (Q2R 1) with 1 in e1, e2 by (q2r; lra). rewrite Rmult_1_r in e1. rewrite Rmult_1_l in e2. split; assumption.
Qed.
Lemma new_from_any l1 l2 tb c new ex s F G (v : R) e :
  registers tables0 (l1 ++ Reg new ex (pure F) (pure G) :: l2) = Ok tb ->
  ~ In new (map r_new l2) -> ~ In ex (map r_new (l1 ++ l2)) ->
  open_class c -> In ex (table_names c) -> standard c = Some s -> ex <> s -> new <> s -> new <> ex ->
  has_char "^" new = false -> mem_str new UNIT_COMPOSITES = false ->
  (exists r, unit_convert_to tb (UO c v new e) s = Ok r /\ simple r c (F v * (si ex / si s * Q2R (out_of ex))) s) /\
  (exists r, unit_convert_to tb (UO c v s e) new = Ok r /\ simple r c (G v * (si s / si ex * Q2R (into ex))) new) /\
  (exists r, unit_convert_to tb (UO c v new e) ex = Ok r /\ simple r c (F v * (Q2R (out_of ex) * Q2R (into ex))) ex) /\
  (exists r, unit_convert_to tb (UO c v ex e) new = Ok r /\ simple r c (G (v * (si ex / si s * Q2R (out_of ex))) * (si s / si ex * Q2R (into ex))) new).
Proof.
  intros h hn hx ho hin hs hes hne hnx hc hm. destruct (registers_app _ _ _ _ h) as [t1 [h1 h2]]. cbn [registers r_new r_existing r_to r_from] in h2.
  match type of h2 with bind ?x _ = _ => destruct x as [t2|] eqn:e2; cbn [bind] in h2; [|discriminate] end.
  destruct (register_ok _ _ _ _ _ _ e2) as [c' [hr [hoth hkk]]].
  destruct (all_pairs_ok (fun c n t => match dict_get UNIT_REGISTRY n with Some d => ucls_eqb d c | None => false end)
     table_names c ex ex) as [l3 [_ l4]]; [vm_compute; reflexivity|names_classes|exact hin|exact hin|].
  rewrite hr in l4. assert (c' = c) by (destruct c', c; (reflexivity || discriminate)). subst c'.
  destruct (in_lin_some _ _ l3) as [[a b] k1]. destruct (lin_entry c ex a b k1) as [o3 [o5 [_ o4]]]. rewrite hs in o4.
  rewrite (proj2 (String.eqb_neq ex s) hes) in o4. destruct o4 as [[et [p1 p2]] [ef [p3 p4]]].
  destruct (lin_factors c ex a b s hin k1 hs hes) as [fa fb]. rewrite <- fa, <- fb.
  assert (dr : Q2R (out_of ex) * Q2R (into ex) = Q2R a * Q2R b) by (rewrite fa, fb; pose proof (si_pos ex); pose proof (si_pos s); field; lra). rewrite dr.
  destruct hkk as [[k0 _]|[_ [et' [ef' [q1 [q2 [q3 q4]]]]]]]; [congruence|].
  assert (hx1 : ~ In ex (map r_new l1)) by (intro hi; apply hx; rewrite map_app; apply in_or_app; auto).
  assert (hx2 : ~ In ex (map r_new l2)) by (intro hi; apply hx; rewrite map_app; apply in_or_app; auto).
  destruct (registers_other _ _ _ ex h1 hx1 c) as [w1 w2]. cbn [to_standard from_standard tables0] in w1, w2.
  rewrite q1, p1 in w1. rewrite q2, p3 in w2. injection w1 as ->. injection w2 as ->.
  destruct (registers_other _ _ _ new h2 hn c) as [k3 k4]. rewrite q3 in k3. rewrite q4 in k4.
  destruct (registers_other _ _ _ ex h2 hx2 c) as [k6 k5]. rewrite (proj1 (hoth c ex (fun q => hnx (eq_sym q)))), q1 in k6. rewrite (proj2 (hoth c ex (fun q => hnx (eq_sym q)))), q2 in k5.
  destruct (open_std c s ho hs) as [o1 o2].
  assert (y1 : forall x, compose et (pure F) x = Ok (F x * Q2R a)) by (intro x; unfold compose, pure; cbn [bind]; apply p2).
  assert (y2 : forall x, compose ef (pure G) x = Ok (G x * Q2R b)) by (intro x; unfold compose, pure; cbn [bind]; apply p4).
  split; [exact (to_std tb c new s v _ e _ hs o1 ho hne hm k3 (y1 v))|]. split; [exact (from_std tb c new s v _ e _ hs o2 ho hne hc k4 (y2 v))|]. split.
  - destruct (via_std tb c new ex s v _ _ e _ ef hs ho hne hes hnx hm o3 k3 (y1 v) k5 (p4 _)) as [r [g1 g2]]. exists r. split; [exact g1|]. rewrite <- Rmult_assoc. exact g2.
  - exact (via_std tb c ex new s v _ _ e _ _ hs ho hes hne (fun q => hnx (eq_sym q)) o5 hc k6 (p2 v) k4 (y2 _)).
Qed.
