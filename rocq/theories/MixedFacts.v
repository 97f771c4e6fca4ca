(** * MixedFacts: sums of quantities in different units *)
From Coq Require Import String Ascii List ZArith QArith Qcanon Bool Reals Lra.
From Verif Require Import Py Num UnitsData UnitsStruct Units NumFacts Spec LawFacts OpFacts DistribSpec DistribFacts UnitConvSpec UnitErrSpec UnitConvFacts UnitConvExact UnitConvMore ConvLaws ConvTotal ConvSpec ConvCases ReadSpec ReadFacts CommuteFacts.
Import ListNotations.
Local Open Scope string_scope.
Local Open Scope list_scope.
Local Open Scope R_scope.

Lemma mixed_multi minus tb (a b b' a' : multi_obj R) s t x : parse_units t = Ok (mtop b, mbot b) -> multi_convert_to tb b s = Ok b' -> plus_or_minus minus (VMulti a) (VMulti b') = Ok x ->
  multi_convert_to tb a t = Ok a' -> exists m r, x = VMulti m /\ multi_convert_to tb m t = Ok r /\ plus_or_minus minus (VMulti a') (VMulti b) = Ok (VMulti r).
Proof.
  intros hb hs hx ha. destruct (multi_commutes minus tb a b' x t a' hx ha) as (m & q & r & -> & hq & hr & e).
  rewrite (proj1 (round_trip tb b s t b' hb hs) q hq) in e. exists m, r. auto.
Qed.
Lemma round_tabulated c n : In n (round_names c) -> In n (table_names c).
Proof. destruct c; cbn; tauto. Qed.
Lemma summand_tag minus (p : unit_obj R) c y t e e' : ev e = ev e' -> plus_or_minus minus (VUnit p) (VUnit (UO c y t e)) = plus_or_minus minus (VUnit p) (VUnit (UO c y t e')).
Proof.
  intro h. assert (g : eeqb (ue p) e = eeqb (ue p) e') by (apply eq_true_iff_eq; rewrite !eeqb_iff, h; reflexivity).
  destruct minus; cbn; unfold unit_addsub; cbn [uc uv un ue]; rewrite g; reflexivity.
Qed.
Lemma mixed_unit minus c n t (x y : R) u w : In n (round_names c) -> In t (round_names c) -> simple u c x n -> simple w c y t ->
  exists w' s u' r, unit_convert_to tables0 w n = Ok w' /\ plus_or_minus minus (VUnit u) (VUnit w') = Ok (VUnit s) /\ unit_convert_to tables0 u t = Ok u' /\
    unit_convert_to tables0 s t = Ok r /\ plus_or_minus minus (VUnit u') (VUnit w) = Ok (VUnit r).
Proof.
  intros hn ht hu hw. pose proof (round_tabulated c n hn) as tn. pose proof (round_tabulated c t ht) as tt'.
  destruct (round_exact c t n y w ht hn hw) as (w' & q & h1 & _ & h2 & h3).
  destruct (table_lin c n tn) as [qn l1]. destruct (table_lin c t tt') as [qt l2]. destruct (simple_obj _ _ _ _ hw) as [e [-> he]].
  destruct (convert_lin c t n y e qt qn l2 l1 he) as (w2 & h4 & h5). rewrite h1 in h4. injection h4 as <-.
  destruct (unit_commutes minus c n t x _ u w' tn tt' hu h5) as (s & p & q' & r & e1 & e2 & e3 & e4 & e5). rewrite h2 in e3. injection e3 as <-.
  exists w', s, p, r. do 4 (split; [assumption|]). destruct (simple_obj _ _ _ _ h3) as [e' [-> he']]. rewrite <- e5. apply summand_tag. congruence.
Qed.
Lemma near_tabulated c n : In n (near_names c) -> In n (table_names c).
Proof. intro h. unfold table_names. apply in_or_app. left. exact h. Qed.
Lemma unit_sum minus c t (v y : R) e e' : In t (table_names c) -> ev e = ev e' -> plus_or_minus minus (VUnit (UO c v t e)) (VUnit (UO c y t e')) = Ok (VUnit (UO c (pm minus v y) t e)).
Proof.
  intros ht h. destruct (table_lin c t ht) as [[qa qb] l]. destruct (lin_entry _ _ _ _ l) as (_ & _ & mk & _). apply eeqb_iff in h.
  destruct minus; cbn; rewrite ucls_sub_refl, String.eqb_refl, h; cbn [andb]; rewrite mk; reflexivity.
Qed.
Lemma mixed_close minus c n t (x y : R) u w : In n (near_names c) -> In t (near_names c) -> simple u c x n -> simple w c y t ->
  exists w' s u' r z, unit_convert_to tables0 w n = Ok w' /\ plus_or_minus minus (VUnit u) (VUnit w') = Ok (VUnit s) /\ unit_convert_to tables0 u t = Ok u' /\
    unit_convert_to tables0 s t = Ok r /\ plus_or_minus minus (VUnit u') (VUnit w) = Ok (VUnit z) /\ uc r = uc z /\ un r = un z /\ ue r = ue z /\ Rabs (uv r - uv z) <= / 100000 * Rabs y.
Proof.
  intros hn ht hu hw. pose proof (near_tabulated c n hn) as tn. pose proof (near_tabulated c t ht) as tt'.
  destruct (round_near c t n y w ht hn hw) as (w' & q & y' & h1 & _ & h2 & h3 & hc).
  destruct (table_lin c n tn) as [qn l1]. destruct (table_lin c t tt') as [qt l2]. destruct (simple_obj _ _ _ _ hw) as [e [-> he]].
  destruct (convert_lin c t n y e qt qn l2 l1 he) as (w2 & h4 & h5). rewrite h1 in h4. injection h4 as <-.
  destruct (unit_commutes minus c n t x _ u w' tn tt' hu h5) as (s & p & q' & r & e1 & e2 & e3 & e4 & e5). rewrite h2 in e3. injection e3 as <-.
  destruct (simple_obj _ _ _ _ hu) as [eu [-> heu]]. destruct (convert_lin c n t x eu qn qt l1 l2 heu) as (p' & g1 & g2). rewrite e2 in g1. injection g1 as <-. destruct (simple_obj _ _ _ _ g2) as [ep [-> hep]].
  destruct (simple_obj _ _ _ _ h3) as [e' [-> he']]. rewrite (unit_sum minus c t _ y' ep e' tt') in e5 by congruence. injection e5 as <-.
  eexists w', s, _, _, _. do 4 (split; [eassumption|]). split; [apply (unit_sum minus c t _ y ep e tt'); congruence|]. do 3 (split; [reflexivity|]). cbn [uv].
  unfold close in hc. set (k := x * _). destruct minus; cbn [pm]; [replace (k - y' - (k - y)) with (- (y' - y)) by ring; rewrite Rabs_Ropp; exact hc|replace (k + y' - (k + y)) with (y' - y) by ring; exact hc].
Qed.
Lemma mixed_degrees : exists u w w' o p r : unit_obj R, mk_unit Temperature 20 "C" (eint 1) = Ok u /\ mk_unit Temperature 300 "K" (eint 1) = Ok w /\ unit_convert_to tables0 w "C" = Ok w' /\
  py_add (VUnit u) (VUnit w') = Ok (VUnit o) /\ unit_convert_to tables0 u "K" = Ok p /\ unit_convert_to tables0 o "K" = Ok r /\ py_add (VUnit p) (VUnit w) <> Ok (VUnit r).
Proof.
  pose (u := UO Temperature 20 "C" (eint 1)). pose (w := UO Temperature 300 "K" (eint 1)).
  assert (hu : simple u Temperature 20 (tname TC)) by (repeat split). assert (hw : simple w Temperature 300 (tname TK)) by (repeat split).
  destruct (temp_all TK TC 300 w hw) as (w' & b & e1 & s1 & k1). destruct (simple_obj _ _ _ _ s1) as [e [-> he]].
  pose (o := UO Temperature (20 + b) "C" (eint 1)). assert (ho : simple o Temperature (20 + b) (tname TC)) by (repeat split).
  assert (eo : py_add (VUnit u) (VUnit (UO Temperature b (tname TC) e)) = Ok (VUnit o)).
  { cbn. unfold unit_addsub. cbn [uc uv un ue u]. assert (g : eeqb (eint 1) e = true) by (apply eeqb_iff; rewrite he; reflexivity). rewrite g. reflexivity. }
  destruct (temp_all TC TK 20 u hu) as (p & a & e2 & _). destruct (temp_all TC TK _ _ s1) as (q & d & e3 & s3 & k3). destruct (temp_all TC TK _ o ho) as (r & c & e4 & _).
  exists u, w, (UO Temperature b (tname TC) e), o, p, r. do 3 (split; [first [reflexivity|assumption]|]). split; [exact eo|]. do 2 (split; [assumption|]).
  intro h. destruct (simple_obj _ _ _ _ s3) as [e' [-> he']]. assert (d = 300) by (cbn [kelvin] in *; lra). subst d.
  change (plus_or_minus false (VUnit p) (VUnit (UO Temperature 300 (tname TK) (eint 1))) = Ok (VUnit r)) in h. rewrite (summand_tag false p _ _ _ (eint 1) e') in h by (rewrite he'; reflexivity).
  apply (temp_commutes false TC TK 20 b u _ o p _ r hu s1 eo e2 e3 e4) in h. destruct h as [h|[h _]]; [discriminate h|cbn in h; lra].
Qed.
Definition speed_f : multi_obj R := MO MMulti 7 [BU "ft" (eflt (qc 1))] [BU "s" (eflt (qc 1))].
Lemma mixed_case : parse_units "ft/s" = Ok (mtop speed_f, mbot speed_f) /\ (exists b' x, multi_convert_to tables0 speed_f "km/hr" = Ok b' /\ py_add (VMulti speed_a) (VMulti b') = Ok x) /\
  (exists a', multi_convert_to tables0 speed_a "ft/s" = Ok a') /\ In "kPa" (round_names Pressure) /\ In "psi" (round_names Pressure).
Proof.
  split; [vm_compute; repeat (f_equal; try (apply Qc_is_canon; reflexivity))|]. split; [|split; [apply commute_case|split; cbn; tauto]].
  assert (hp : parse_units "km/hr" = Ok ([BU "km" (eflt (qc 1))], [BU "hr" (eflt (qc 1))])) by (vm_compute; repeat (f_equal; try (apply Qc_is_canon; reflexivity))).
  assert (hc : exists r, multi_convert_to tables0 speed_f "km/hr" = Ok r).
  { apply (convert_total speed_f "km/hr" _ _ hp).
    + apply Forall_forall. intros l [<-|[<-|[<-|[<-|[]]]]]; apply safe_half_b; vm_compute; reflexivity.
    + intro b. destruct b; apply Qc_is_canon; reflexivity. }
  destruct hc as (r & hr). pose proof hr as hr'. apply (convert_exact _ _ _ _ _ hp) in hr'. destruct hr' as (_ & _ & _ & _ & _ & _ & _ & _ & ->). eexists _, _. split; [exact hr|]. reflexivity.
Qed.
