(** * UnitConvExact: the factors of all tabulated conversions, and when they are right *)
From Coq Require Import String Ascii List ZArith QArith Qcanon Bool Reals Qreals Lia Lra.
From Verif Require Import Py Num UnitsData UnitsStruct Units NumFacts Spec SpecFacts StructFacts ExpandFacts PrefixFacts FactorFacts
  LawFacts WitnessFacts TextFacts UnitConvSpec UnitConvFacts UnitConvMore UnitErrSpec.
Import ListNotations.
Local Open Scope string_scope.
Local Open Scope list_scope.
Local Open Scope R_scope.

(** [K] against the sizes and errors, by computation. *)
Definition si_q (n : string) : Q := match dict_get si_table n with Some x => x | None => 1%Q end.
Lemma si_is n : si n = Q2R (si_q n).
Proof. unfold si, si_q. destruct (dict_get si_table n); [reflexivity|q2r; lra]. Qed.
Lemma K_errors c n t : In n (table_names c) -> In t (table_names c) -> n <> t ->
  in_lin c n = true /\ in_lin c t = true /\ Q2R (K c n t) = si n / si t * (Q2R (out_of n) * Q2R (into t)).
Proof.
  intros hn ht hne.
  destruct (all_pairs_ok (fun c n t => String.eqb n t || (Qeq_bool (K c n t * si_q t) (si_q n * (out_of n * into t)))) table_names c n t) as [l1 [l2 l3]];
    [vm_compute; reflexivity|names_classes|exact hn|exact ht|]. split; [exact l1|]. split; [exact l2|].
  apply orb_true_iff in l3. destruct l3 as [l3|l3]; [apply String.eqb_eq in l3; contradiction|]. apply Qeq_bool_iff, Qeq_eqR in l3. rewrite !Q2R_mult in l3.
  rewrite !si_is. pose proof (si_pos t) as hp. rewrite si_is in hp. apply (Rmult_eq_reg_r (Q2R (si_q t))); [|lra]. rewrite l3. field. lra.
Qed.
Lemma convert_errors c n t v u : In n (table_names c) -> In t (table_names c) -> n <> t -> simple u c v n ->
  exists r, unit_convert_to tables0 u t = Ok r /\ simple r c (v * (si n / si t) * (Q2R (out_of n) * Q2R (into t))) t.
Proof.
  intros hn ht hne hu. destruct (K_errors c n t hn ht hne) as [l1 [l2 l3]]. destruct (in_lin_some _ _ l1) as [q1 k1]. destruct (in_lin_some _ _ l2) as [q2 k2].
  destruct (simple_obj _ _ _ _ hu) as [e [-> he]]. destruct (convert_lin c n t v e q1 q2 k1 k2 he) as [r [h1 h2]]. exists r. split; [exact h1|].
  rewrite l3 in h2. replace (v * (si n / si t) * (Q2R (out_of n) * Q2R (into t))) with (v * (si n / si t * (Q2R (out_of n) * Q2R (into t)))) by ring. exact h2.
Qed.
(** There and back. *)
Lemma there_and_back c n t v u : In n (table_names c) -> In t (table_names c) -> n <> t -> simple u c v n ->
  exists r r', unit_convert_to tables0 u t = Ok r /\ un r = t /\ unit_convert_to tables0 r n = Ok r' /\
    simple r' c (v * (Q2R (out_of n) * Q2R (into n)) * (Q2R (out_of t) * Q2R (into t))) n.
Proof.
  intros hn ht hne hu. destruct (convert_errors c n t v u hn ht hne hu) as [r [h1 h2]].
  destruct (convert_errors c t n _ r ht hn (fun e => hne (eq_sym e)) h2) as [r' [h3 h4]]. exists r, r'. split; [exact h1|]. split; [apply h2|]. split; [exact h3|].
  match type of h4 with simple _ _ ?x _ => match goal with |- simple _ _ ?y _ => replace y with x; [exact h4|] end end.
  pose proof (si_pos n). pose proof (si_pos t). field. lra.
Qed.
(** Exactly the names of [round_names] and [si_names] come out right. *)
Definition mem (n : string) (l : list string) : bool := existsb (String.eqb n) l.
Lemma mem_iff n l : mem n l = true <-> In n l.
Proof. unfold mem. rewrite existsb_exists. split; [intros [x [h e]]; apply String.eqb_eq in e; congruence|intro h; exists n; split; [exact h|apply String.eqb_refl]]. Qed.
Lemma drift_one c n t : In n (table_names c) -> In t (table_names c) -> n <> t ->
  ((Q2R (out_of n) * Q2R (into n)) * (Q2R (out_of t) * Q2R (into t)) = 1 <-> In n (round_names c) /\ In t (round_names c)).
Proof.
  intros hn ht hne.
  destruct (all_pairs_ok (fun c n t => String.eqb n t || Bool.eqb (Qeq_bool ((out_of n * into n) * (out_of t * into t)) 1) (mem n (round_names c) && mem t (round_names c))) table_names c n t) as [_ [_ l3]];
    [vm_compute; reflexivity|names_classes|exact hn|exact ht|].
  apply orb_true_iff in l3. destruct l3 as [l3|l3]; [apply String.eqb_eq in l3; contradiction|]. apply eqb_prop in l3. rewrite <- !mem_iff, <- andb_true_iff, <- l3.
  rewrite Qeq_bool_iff. rewrite <- !Q2R_mult. replace 1 with (Q2R 1) by (q2r; lra). split; [apply eqR_Qeq|apply Qeq_eqR].
Qed.
Lemma round_iff c n t v u : In n (table_names c) -> In t (table_names c) -> n <> t -> v <> 0 -> simple u c v n ->
  ((exists r r', unit_convert_to tables0 u t = Ok r /\ unit_convert_to tables0 r n = Ok r' /\ simple r' c v n) <-> In n (round_names c) /\ In t (round_names c)).
Proof.
  intros hn ht hne hv hu. destruct (there_and_back c n t v u hn ht hne hu) as [r [r' [h1 [_ [h2 h3]]]]]. rewrite <- (drift_one c n t hn ht hne). split.
  - intros [s [s' [k1 [k2 k3]]]]. rewrite h1 in k1. injection k1 as <-. rewrite h2 in k2. injection k2 as <-.
    destruct h3 as [_ [h3 _]], k3 as [_ [k3 _]]. rewrite k3 in h3. apply (Rmult_eq_reg_l v); [|exact hv]. rewrite Rmult_1_r, <- Rmult_assoc. symmetry. exact h3.
  - intro e. exists r, r'. split; [exact h1|]. split; [exact h2|]. replace v with (v * (Q2R (out_of n) * Q2R (into n)) * (Q2R (out_of t) * Q2R (into t))) by (rewrite Rmult_assoc, e; ring). exact h3.
Qed.
Lemma errors_one c n t : In n (table_names c) -> In t (table_names c) -> n <> t ->
  (Q2R (out_of n) * Q2R (into t) = 1 <-> ~ In n ["MPa"; "psi"; "mile"; "lb"] /\ ~ In t ["MPa"; "psi"; "mile"; "lb"; "ft"; "in"]).
Proof.
  intros hn ht hne.
  destruct (all_pairs_ok (fun c n t => String.eqb n t || Bool.eqb (Qeq_bool (out_of n * into t) 1) (negb (mem n ["MPa"; "psi"; "mile"; "lb"]) && negb (mem t ["MPa"; "psi"; "mile"; "lb"; "ft"; "in"]))) table_names c n t) as [_ [_ l3]];
    [vm_compute; reflexivity|names_classes|exact hn|exact ht|].
  apply orb_true_iff in l3. destruct l3 as [l3|l3]; [apply String.eqb_eq in l3; contradiction|]. apply eqb_prop in l3.
  rewrite <- !mem_iff, !not_true_iff_false, <- !negb_true_iff, <- andb_true_iff, <- l3.
  rewrite Qeq_bool_iff. rewrite <- Q2R_mult. replace 1 with (Q2R 1) by (q2r; lra). split; [apply eqR_Qeq|apply Qeq_eqR].
Qed.
Lemma si_iff c n t v u : In n (table_names c) -> In t (table_names c) -> n <> t -> v <> 0 -> simple u c v n ->
  ((exists r, unit_convert_to tables0 u t = Ok r /\ simple r c (v * (si n / si t)) t) <-> ~ In n ["MPa"; "psi"; "mile"; "lb"] /\ ~ In t ["MPa"; "psi"; "mile"; "lb"; "ft"; "in"]).
Proof.
  intros hn ht hne hv hu. destruct (convert_errors c n t v u hn ht hne hu) as [r [h1 h2]]. rewrite <- (errors_one c n t hn ht hne). split.
  - intros [s [k1 k2]]. rewrite h1 in k1. injection k1 as <-. destruct h2 as [_ [h2 _]], k2 as [_ [k2 _]]. rewrite k2 in h2.
    pose proof (si_pos n). pose proof (si_pos t). assert (p : 0 < si n / si t) by (apply Rdiv_lt_0_compat; assumption).
    apply (Rmult_eq_reg_l (v * (si n / si t))); [rewrite Rmult_1_r; symmetry; exact h2|]. apply Rmult_integral_contrapositive_currified; lra.
  - intro e. exists r. split; [exact h1|]. rewrite e, Rmult_1_r in h2. exact h2.
Qed.

(** ** Powers *)
Lemma caret_target n t d q c (v : R) e a b a' b' : dict_get (lin_table c) n = Some (a, b) -> dict_get (lin_table c) t = Some (a', b') -> has_char "^" d = false -> py_float d = Ok q ->
  unit_convert_to tables0 (UO c v n e) (t +++ String "^" d) = unit_convert_core tables0 (UO c v n e) t t (eflt q).
Proof.
  intros k1 k2 hd hq. destruct (lin_entry c n a b k1) as [_ [h2 _]]. destruct (lin_entry c t a' b' k2) as [h5 _].
  unfold unit_convert_to. cbn [un]. rewrite h2. assert (hc : has_char "^" (t +++ String "^" d) = true).
  { clear. induction t as [|ch t IH]; [reflexivity|]. cbn. rewrite IH. apply orb_true_r. }
  rewrite hc, (split_sep "^"%char t d h5), (split_none "^"%char d hd), hq. reflexivity.
Qed.
Lemma standard_lin c n q : dict_get (lin_table c) n = Some q -> standard c = Some (standard_name c) /\ exists q', dict_get (lin_table c) (standard_name c) = Some q'.
Proof. intro h. destruct c; try discriminate; (split; [reflexivity|eexists; reflexivity]). Qed.
(** Two units neither of which is the standard one: the value is raised twice. *)
Lemma power_two_steps c n t d q (v y x : R) e : In n (table_names c) -> In t (table_names c) -> n <> t -> n <> standard_name c -> t <> standard_name c ->
  has_char "^" d = false -> py_float d = Ok q ->
  Rpowq (v * (si n / si (standard_name c) * Q2R (out_of n))) q = Ok y -> Rpowq (y * (si (standard_name c) / si t * Q2R (into t))) q = Ok x ->
  unit_convert_to tables0 (UO c v n e) (t +++ String "^" d) = Ok (UO c x t (eflt q)).
Proof.
  intros hn ht hne hns hts hd hq hy hx. destruct (K_errors c n t hn ht hne) as [l1 [l2 _]].
  destruct (in_lin_some _ _ l1) as [[a b] k1]. destruct (in_lin_some _ _ l2) as [[a' b'] k2]. rewrite (caret_target n t d q c v e a b a' b' k1 k2 hd hq).
  destruct (standard_lin c n _ k1) as [hs [[sa sb] ks]].
  assert (ins : In (standard_name c) (table_names c)) by (destruct c; try discriminate; cbn; tauto).
  destruct (K_errors c n (standard_name c) hn ins hns) as [_ [_ e1]]. destruct (K_errors c (standard_name c) t ins ht (fun z => hts (eq_sym z))) as [_ [_ e2]].
  assert (one : out_of (standard_name c) = 1%Q /\ into (standard_name c) = 1%Q /\ sa = 1%Q /\ sb = 1%Q).
  { destruct c; try discriminate; cbn in ks; injection ks as <- <-; repeat split. }
  destruct one as [o1 [o2 [-> ->]]]. rewrite o2 in e1. rewrite o1 in e2. replace (Q2R 1) with 1 in e1, e2 by (q2r; lra). rewrite Rmult_1_r in e1. rewrite Rmult_1_l in e2.
  unfold K in e1, e2. rewrite k1, ks in e1. rewrite k2, ks in e2.
  replace (String.eqb n (standard_name c)) with false in e1 by (symmetry; apply String.eqb_neq; exact hns).
  replace (String.eqb (standard_name c) t) with false in e2 by (symmetry; apply String.eqb_neq; congruence).
  rewrite Q2R_mult in e1, e2. replace (Q2R 1) with 1 in e1, e2 by (q2r; lra). rewrite Rmult_1_r in e1. rewrite Rmult_1_l in e2. rewrite <- e1 in hy. rewrite <- e2 in hx.
  destruct (lin_entry c n a b k1) as [_ [_ [_ h4]]]. destruct (lin_entry c t a' b' k2) as [_ [_ [h7 h8]]].
  unfold unit_convert_core. cbn [un uc uv]. rewrite (proj2 (String.eqb_neq n t) hne). rewrite hs in *.
  rewrite (proj2 (String.eqb_neq n _) hns) in *. rewrite (proj2 (String.eqb_neq t _) hts) in *. destruct h4 as [[f [hf hv]] _]. destruct h8 as [_ [g [hg hw]]].
  unfold to_val. cbn [to_standard tables0]. rewrite hf. cbn [bind]. rewrite hv. cbn [bind npow Rnum ev eflt]. rewrite hy.
  cbn [bind]. unfold from_val. cbn [from_standard tables0]. rewrite hg. cbn [bind]. rewrite hw. cbn [bind npow Rnum ev eflt]. rewrite hx. cbn [bind]. apply h7.
Qed.
(** With the standard unit on one side: right exactly for the value 1 or the power 1. *)
Lemma power_value x y : 0 < x -> y <> 0 -> Rpower x y = x -> x = 1 \/ y = 1.
Proof.
  intros hx hy h. assert (l : y * ln x = ln x) by (rewrite <- h at 2; unfold Rpower; rewrite ln_exp; reflexivity).
  destruct (Req_dec (ln x) 0) as [z|z]; [left; apply ln_inv; [exact hx|lra|rewrite ln_1; exact z]|right; apply (Rmult_eq_reg_r (ln x)); [lra|exact z]].
Qed.
Lemma power_right c n t d q (v : R) e : In n (si_names c) -> In t (si_names c) -> n <> t -> standard c = Some n \/ standard c = Some t -> has_char "^" d = false -> py_float d = Ok q -> 0 < v ->
  exists r, unit_convert_to tables0 (UO c v n e) (t +++ String "^" d) = Ok r /\ un r = t /\ ev (ue r) = q /\ uv r = Rpower (v * (si n / si t)) (QcR q) /\
    (uv r = v * Rpower (si n / si t) (QcR q) <-> v = 1 \/ q = qc 1).
Proof.
  intros hn ht hne hs hd hq hv. pose proof (si_pos n). pose proof (si_pos t). assert (p : 0 < si n / si t) by (apply Rdiv_lt_0_compat; assumption).
  assert (p' : 0 < v * (si n / si t)) by (apply Rmult_lt_0_compat; assumption).
  eexists. split; [apply power_actual; try eassumption; apply Rpowq_pos; exact p'|]. split; [reflexivity|]. split; [reflexivity|]. cbn [uv]. split; [reflexivity|].
  rewrite Rpower_mult_base by assumption. pose proof (Rpower_pos (si n / si t) (QcR q)) as pp. split.
  - intro h. apply Rmult_eq_reg_r in h; [|lra]. destruct (Req_dec (QcR q) 0) as [z|z].
    + rewrite z, Rpower_O in h by exact hv. left. lra.
    + destruct (power_value v (QcR q) hv z h) as [k|k]; [left; exact k|right]. apply QcR_inj. rewrite QcR_qc. exact k.
  - intros [->| ->]; [unfold Rpower at 1; rewrite ln_1, Rmult_0_r, exp_0; reflexivity|rewrite QcR_qc; replace (IZR 1) with 1 by reflexivity; rewrite Rpower_1 by exact hv; reflexivity].
Qed.
(** For the cases. *)
Lemma Rpowq_two x : Rpowq x (qc 2) = Ok (x * x).
Proof. rewrite Rpowq_int by (right; lia). f_equal. cbn [powerRZ]. change (Pos.to_nat 2) with 2%nat. cbn. ring. Qed.
