(** * UnitConvMore: powers, unit checks, registration, registry *)
From Coq Require Import String Ascii List ZArith QArith Qcanon Bool Reals Qreals Lia Lra.
From Verif Require Import Py Num UnitsData UnitsStruct Units NumFacts Spec SpecFacts StructFacts ExpandFacts PrefixFacts FactorFacts
  LawFacts WitnessFacts TextFacts UnitConvSpec UnitConvFacts.
Import ListNotations.
Local Open Scope string_scope.
Local Open Scope list_scope.
Local Open Scope R_scope.

(** ** C27 *)
Lemma si_lin c n t : In n (si_names c) -> In t (si_names c) -> exists qn qt,
  dict_get (lin_table c) n = Some qn /\ dict_get (lin_table c) t = Some qt /\ Q2R (K c n t) = si n / si t.
Proof.
  intros hn ht.
  destruct (all_pairs_ok (fun c n t => match dict_get si_table n, dict_get si_table t with Some x, Some y => Qeq_bool (K c n t * y) x && negb (Qeq_bool y 0) | _, _ => false end)
    si_names c n t) as [l1 [l2 l3]]; [vm_compute; reflexivity|names_classes|exact hn|exact ht|].
  destruct (in_lin_some _ _ l1) as [q1 k1]. destruct (in_lin_some _ _ l2) as [q2 k2]. exists q1, q2. split; [exact k1|]. split; [exact k2|].
  unfold si. destruct (dict_get si_table n) as [x|]; [|discriminate]. destruct (dict_get si_table t) as [y|] eqn:ey; [|discriminate].
  apply andb_true_iff in l3. destruct l3 as [l3 l4]. apply Qeq_bool_iff, Qeq_eqR in l3. rewrite <- l3, Q2R_mult.
  pose proof (si_pos t) as hp. unfold si in hp. rewrite ey in hp. field. lra.
Qed.
Lemma power_core c n t (v : R) e ex x : In n (si_names c) -> In t (si_names c) -> n <> t ->
  standard c = Some n \/ standard c = Some t -> Rpowq (v * (si n / si t)) (ev ex) = Ok x ->
  unit_convert_core tables0 (UO c v n e) t t ex = Ok (UO c x t ex).
Proof.
  intros hn ht hne hs hx. destruct (si_lin c n t hn ht) as [[a b] [[a' b'] [k1 [k2 k3]]]].
  rewrite <- k3 in hx. unfold K in hx. rewrite (proj2 (String.eqb_neq n t) hne), k1, k2 in hx.
  destruct (lin_entry c n a b k1) as [_ [_ [_ h4]]]. destruct (lin_entry c t a' b' k2) as [_ [_ [h7 h8]]].
  unfold unit_convert_core. cbn [un uc uv]. rewrite (proj2 (String.eqb_neq n t) hne).
  destruct (standard c) as [std|]; [|contradiction].
  destruct (String.eqb t std) eqn:ets.
  - destruct h8 as [-> ->]. apply String.eqb_eq in ets. subst std. rewrite (proj2 (String.eqb_neq n t) hne) in h4. destruct h4 as [[f [hf hv]] _].
    unfold to_val. cbn [to_standard tables0]. rewrite hf. cbn [bind]. rewrite hv. cbn [bind npow Rnum].
    rewrite Q2R_mult in hx. replace (Q2R 1) with 1 in hx by (q2r; lra). rewrite Rmult_1_r in hx. rewrite hx. cbn [bind]. apply h7.
  - destruct h8 as [_ [g [hg hw]]].
    destruct (String.eqb n std) eqn:ens.
    + destruct h4 as [-> ->]. unfold from_val. cbn [from_standard tables0]. rewrite hg. cbn [bind]. rewrite hw. cbn [bind npow Rnum].
      rewrite Q2R_mult in hx. replace (Q2R 1) with 1 in hx by (q2r; lra). rewrite Rmult_1_l in hx. rewrite hx. cbn [bind]. apply h7.
    + exfalso. apply String.eqb_neq in ets, ens. destruct hs as [h|h]; injection h as ->; congruence.
Qed.
Lemma power_partial c n t d q (v : R) e : In n (si_names c) -> In t (si_names c) -> n <> t ->
  standard c = Some n \/ standard c = Some t -> has_char "^" d = false -> py_float d = Ok q -> v = 1 \/ q = qc 1 ->
  exists r, unit_convert_to tables0 (UO c v n e) (t +++ String "^" d) = Ok r /\
    uc r = c /\ uv r = v * Rpower (si n / si t) (QcR q) /\ un r = t /\ ev (ue r) = q.
Proof.
  intros hn ht hne hs hd hq hv. destruct (si_lin c n t hn ht) as [[a b] [[a' b'] [k1 [k2 k3]]]].
  destruct (lin_entry c n a b k1) as [_ [h2 _]]. destruct (lin_entry c t a' b' k2) as [h5 _].
  unfold unit_convert_to. cbn [un]. rewrite h2.
  assert (hc : has_char "^" (t +++ String "^" d) = true).
  { clear. induction t as [|ch t IH]; [reflexivity|]. cbn. rewrite IH. apply orb_true_r. }
  rewrite hc, (split_sep "^"%char t d h5), (split_none "^"%char d hd), hq. cbn [bind].
  assert (hp : 0 < si n / si t) by (apply Rdiv_lt_0_compat; apply si_pos).
  assert (hx : Rpowq (v * (si n / si t)) (ev (eflt q)) = Ok (v * Rpower (si n / si t) (QcR q))).
  { cbn [ev eflt]. destruct hv as [->| ->].
    - rewrite !Rmult_1_l. apply Rpowq_pos. exact hp.
    - rewrite Rpowq_1, QcR_qc, Rpower_1 by exact hp. reflexivity. }
  rewrite (power_core c n t v e (eflt q) _ hn ht hne hs hx). eexists. split; [reflexivity|]. repeat split.
Qed.

Lemma m_cm (v : R) e : unit_convert_to tables0 (UO Length v "m" e) "cm^2" = Ok (UO Length ((v * 100) * (v * 100)) "cm" (eflt (qc 2))).
Proof.
  unfold unit_convert_to. cbn [un]. change (mem_str "m" UNIT_COMPOSITES) with false. change (has_char "^" "cm^2") with true. cbn iota.
  change (split_on "^" "cm^2") with ["cm"; "2"]. cbn iota. rewrite py_float_2. cbn [bind].
  unfold unit_convert_core. cbn [un uc uv standard]. change (String.eqb "m" "cm") with false. change (String.eqb "cm" "m") with false.
  change (String.eqb "m" "m") with true. cbn iota. unfold from_val. change (tab_get (from_standard tables0 Length) "cm") with (Ok (times (T := R) (100 # 1))).
  cbn [bind]. cbv [times nmul nq Rnum npow]. cbn [bind ev eflt]. rewrite Rpowq_int by (right; lia). cbn [bind mk_unit]. f_equal. f_equal.
  cbn [powerRZ]. change (Pos.to_nat 2) with 2%nat. q2r. field.
Qed.
Lemma power_refuted : exists (u r : unit_obj R), u = UO Length 5 "m" (eint 2) /\ unit_convert_to tables0 u "cm^2" = Ok r /\
  un r = "cm" /\ ev (ue r) = qc 2 /\ uv r = 250000 /\ uv r <> uv u * Rpower (si "m" / si "cm") (QcR (ev (ue u))).
Proof.
  eexists _, _. split; [reflexivity|]. split; [apply m_cm|]. cbn [un ue uv]. split; [reflexivity|]. split; [reflexivity|]. split; [lra|].
  assert (e : si "m" / si "cm" = 100) by (si_val "m" 1%Q; si_val "cm" (1 # 100); q2r; field).
  rewrite e. cbn [ev eint]. rewrite QcR_qc. replace (IZR 2) with (INR 2) by (cbn; lra). rewrite Rpower_pow by lra. lra.
Qed.
(** The exponent of the value is not looked at: a volume in m becomes an area. *)
Lemma exponent_refuted : exists (u r : unit_obj R), u = UO Length 1 "m" (eint 3) /\ unit_convert_to tables0 u "cm^2" = Ok r /\ ev (ue r) = qc 2.
Proof. eexists _, _. split; [reflexivity|]. split; [apply m_cm|reflexivity]. Qed.

(** ** C33 *)
Lemma shape_half a b : half_eqb a b = true <-> map (fun x => (bname x, ev (bexp x))) a = map (fun x => (bname x, ev (bexp x))) b.
Proof. apply half_eqb_same. Qed.
Lemma check_unit (u : unit_obj R) s : (un u = s -> check_units (VUnit u) s = Ok tt) /\ (un u <> s -> check_units (VUnit u) s = Raise EIncorrectUnits).
Proof.
  cbn. split.
  - intros ->. rewrite String.eqb_refl. reflexivity.
  - intro h. rewrite (proj2 (String.eqb_neq _ _) h). reflexivity.
Qed.
Lemma check_multi (m : multi_obj R) s t b : parse_units s = Ok (t, b) ->
  (shape (VMulti m) = shape (VMulti (MO MMulti 0 t b)) -> check_units (VMulti m) s = Ok tt) /\
  (shape (VMulti m) <> shape (VMulti (MO MMulti 0 t b)) -> check_units (VMulti m) s = Raise EAttributeError).
Proof.
  intro hp. unfold check_units. rewrite hp. cbn [bind fst snd shape mtop mbot]. split.
  - intro h. injection h as h1 h2. apply shape_half in h1, h2. rewrite h1, h2. reflexivity.
  - intro h. destruct (half_eqb (mtop m) t && half_eqb (mbot m) b) eqn:e; [|reflexivity].
    apply andb_true_iff in e. destruct e as [e1 e2]. apply shape_half in e1, e2. destruct h. congruence.
Qed.
Lemma check_refuted_exponent : exists u : unit_obj R, ev (ue u) = qc 2 /\ un u = "m" /\ check_units (VUnit u) "m" = Ok tt.
Proof. exists (UO Length 1 "m" (eint 2)). repeat split. Qed.
Lemma check_refuted_error : exists m : multi_obj R, check_units (VMulti m) "m/s" = Raise EAttributeError.
Proof. exists (MO MMulti 1 [BU "kg" (eint 1)] nil). vm_compute. reflexivity. Qed.

(** ** Wrong and rounded constants *)
Lemma lin_uv c n t (v : R) k : in_lin c n = true -> in_lin c t = true -> Qeq_bool (K c n t) k = true ->
  exists r, unit_convert_to tables0 (UO c v n (eint 1)) t = Ok r /\ simple r c (v * Q2R k) t.
Proof.
  intros h1 h2 h3. destruct (in_lin_some _ _ h1) as [q1 k1]. destruct (in_lin_some _ _ h2) as [q2 k2].
  apply Qeq_bool_iff, Qeq_eqR in h3. rewrite <- h3. apply (convert_lin c n t v (eint 1) q1 q2 k1 k2 eq_refl).
Qed.
(** One metre is reported as 1609.34 miles, and comes back as 2589975 metres. *)
Lemma mile_round : exists r r' : unit_obj R, unit_convert_to tables0 (UO Length 1 "m" (eint 1)) "mile" = Ok r /\ uv r = 160934 / 100 /\
  unit_convert_to tables0 r "m" = Ok r' /\ uv r' <> 1.
Proof.
  destruct (lin_uv Length "m" "mile" 1 (160934 # 100) eq_refl eq_refl eq_refl) as [r [h1 h2]]. destruct (simple_obj _ _ _ _ h2) as [e [-> he]].
  destruct (convert_lin Length "mile" "m" (1 * Q2R (160934 # 100)) e _ _ eq_refl eq_refl he) as [r' [h3 [_ [h4 _]]]].
  exists (UO Length (1 * Q2R (160934 # 100)) "mile" e), r'. split; [exact h1|]. split; [cbn [uv]; q2r; lra|]. split; [exact h3|].
  rewrite h4. replace (Q2R (K Length "mile" "m")) with (160934 / 100) by (vm_compute (K Length "mile" "m"); q2r; field). q2r. lra.
Qed.
(** The constants of the pound are not inverse to each other. *)
Lemma lb_round : exists r r' : unit_obj R, unit_convert_to tables0 (UO Mass 1 "lb" (eint 1)) "kg" = Ok r /\
  unit_convert_to tables0 r "lb" = Ok r' /\ uv r' <> 1.
Proof.
  destruct (lin_uv Mass "lb" "kg" 1 (453592 # 1000000) eq_refl eq_refl eq_refl) as [r [h1 h2]]. destruct (simple_obj _ _ _ _ h2) as [e [-> he]].
  destruct (convert_lin Mass "kg" "lb" (1 * Q2R (453592 # 1000000)) e _ _ eq_refl eq_refl he) as [r' [h3 [_ [h4 _]]]].
  eexists _, r'. split; [exact h1|]. split; [exact h3|].
  rewrite h4. replace (Q2R (K Mass "kg" "lb")) with (220462 / 100000) by (vm_compute (K Mass "kg" "lb"); q2r; field). q2r. lra.
Qed.
(** One MPa becomes ten million pascals. *)
Lemma mpa_refuted : exists r : unit_obj R, unit_convert_to tables0 (UO Pressure 1 "MPa" (eint 1)) "Pa" = Ok r /\
  uv r = 10000000 /\ uv r <> 1 * (si "MPa" / si "Pa").
Proof.
  destruct (lin_uv Pressure "MPa" "Pa" 1 (10000000 # 1) eq_refl eq_refl eq_refl) as [r [h1 [_ [h2 _]]]]. exists r. split; [exact h1|].
  rewrite h2. si_val "MPa" (1000000 # 1). si_val "Pa" 1%Q. q2r. split; lra.
Qed.
Lemma mile_size_refuted : exists r : unit_obj R, unit_convert_to tables0 (UO Length 1 "m" (eint 1)) "mile" = Ok r /\
  uv r <> 1 * (si "m" / si "mile").
Proof.
  destruct mile_round as [r [_ [h1 [h2 _]]]]. exists r. split; [exact h1|]. rewrite h2. si_val "m" 1%Q. si_val "mile" (1609344 # 1000). q2r. lra.
Qed.

(** What the power conversion computes, whatever exponent the unit had. *)
Lemma power_actual c n t d q (v x : R) e : In n (si_names c) -> In t (si_names c) -> n <> t ->
  standard c = Some n \/ standard c = Some t -> has_char "^" d = false -> py_float d = Ok q -> Rpowq (v * (si n / si t)) q = Ok x ->
  unit_convert_to tables0 (UO c v n e) (t +++ String "^" d) = Ok (UO c x t (eflt q)).
Proof.
  intros hn ht hne hs hd hq hx. destruct (si_lin c n t hn ht) as [[a b] [[a' b'] [k1 [k2 k3]]]].
  destruct (lin_entry c n a b k1) as [_ [h2 _]]. destruct (lin_entry c t a' b' k2) as [h5 _].
  unfold unit_convert_to. cbn [un]. rewrite h2.
  assert (hc : has_char "^" (t +++ String "^" d) = true).
  { clear. induction t as [|ch t IH]; [reflexivity|]. cbn. rewrite IH. apply orb_true_r. }
  rewrite hc, (split_sep "^"%char t d h5), (split_none "^"%char d hd), hq. cbn [bind].
  exact (power_core c n t v e (eflt q) _ hn ht hne hs hx).
Qed.
