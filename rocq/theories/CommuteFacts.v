(** * CommuteFacts: converting sums and multiples *)
From Coq Require Import String Ascii List ZArith QArith Qcanon Bool Reals Lra.
From Verif Require Import Py Num UnitsData UnitsStruct Units NumFacts Spec LawFacts OpFacts TagFacts AlikeSpec AlikeFacts StaticSpec StaticFacts DistribSpec DistribFacts UnitConvSpec UnitErrSpec UnitConvFacts UnitConvExact PropFacts SpecFacts ExpandFacts UnitConvMore ConvTotal ConvSpec ConvCases ReadSpec ReadFacts.
Import ListNotations.
Local Open Scope string_scope.
Local Open Scope list_scope.
Local Open Scope R_scope.

Lemma convert_linear tb c (v : R) t l s p : multi_convert_to tb (MO c v t l) s = Ok p ->
  exists k pt pb, p = MO c (v * k) pt pb /\ forall c' v', multi_convert_to tb (MO c' v' t l) s = Ok (MO c' (v' * k) pt pb).
Proof.
  unfold multi_convert_to. cbn [mtop mbot mv mc].
  repeat match goal with
      | |- bind ?e _ = _ -> _ => destruct e; cbn [bind]; [|discriminate]
      | |- (let '(_, _) := ?p in _) = _ -> _ => destruct p
      | |- (if ?c then _ else _) = _ -> _ => destruct c; [|discriminate] end.
  unfold mk_multi. destruct (String.eqb s ""); [intro h; injection h as <-; do 3 eexists; split; [reflexivity|reflexivity]|].
  destruct (parse_units s); cbn [bind]; [|discriminate]. intro h; injection h as <-; do 3 eexists; split; reflexivity.
Qed.
Lemma multi_commutes minus tb (a b : multi_obj R) s t p : plus_or_minus minus (VMulti a) (VMulti b) = Ok s -> multi_convert_to tb a t = Ok p ->
  exists m q r, s = VMulti m /\ multi_convert_to tb b t = Ok q /\ multi_convert_to tb m t = Ok r /\ plus_or_minus minus (VMulti p) (VMulti q) = Ok (VMulti r).
Proof.
  intros hs hp. assert (hcls : minus = false -> mc a = mc b).
  { intros ->. cbn in hs. destruct (mcls_eqb (mc a) (mc b)) eqn:e; [apply mcls_eqb_eq; exact e|discriminate hs]. }
  apply sum_multi in hs. destruct hs as (h1 & h2 & ->). destruct a as [c v ta la], b as [c' v' tb' lb']. cbn [mtop mbot mv mc] in *.
  destruct (convert_linear _ _ _ _ _ _ _ hp) as (k & pt & pb & -> & hk). do 3 eexists. split; [reflexivity|]. split.
  { rewrite <- (convert_alike tb (MO c' v' ta la) (MO c' v' tb' lb') t); [apply hk|]. refine (conj eq_refl (conj eq_refl (conj h1 h2))). }
  split; [apply hk|]. destruct minus; cbn; [|rewrite (hcls eq_refl); assert (ec : mcls_eqb c' c' = true) by (apply mcls_eqb_eq; reflexivity); rewrite ec];
  pose proof (proj1 (hs_iff pt pt) (hs_refl pt)) as e1; pose proof (proj1 (hs_iff pb pb) (hs_refl pb)) as e2; rewrite e1, e2; cbn [andb]; do 3 f_equal; unfold pm; cbn; lra.
Qed.
Lemma scale_commutes tb (a : multi_obj R) x t p : multi_convert_to tb a t = Ok p ->
  exists m r, py_mul (VNum x) (VMulti a) = Ok (VMulti m) /\ multi_convert_to tb m t = Ok r /\ py_mul (VNum x) (VMulti p) = Ok (VMulti r).
Proof.
  intro hp. destruct a as [c v ta la]. destruct (convert_linear _ _ _ _ _ _ _ hp) as (k & pt & pb & -> & hk). do 2 eexists. split; [reflexivity|]. split; [apply hk|].
  cbn. do 3 f_equal. lra.
Qed.
Lemma div_commutes tb (a : multi_obj R) x t p : x <> 0 -> multi_convert_to tb a t = Ok p ->
  exists m r, py_div (VMulti a) (VNum x) = Ok (VMulti m) /\ multi_convert_to tb m t = Ok r /\ py_div (VMulti p) (VNum x) = Ok (VMulti r).
Proof.
  intros hx hp. destruct a as [c v ta la]. destruct (convert_linear _ _ _ _ _ _ _ hp) as (k & pt & pb & -> & hk). do 2 eexists. cbn [py_div multi_div mv mtop mbot]. rewrite !pydiv_ok by exact hx. cbn [bind].
  split; [reflexivity|]. split; [apply hk|]. do 3 f_equal. field. exact hx.
Qed.
Lemma neg_commutes tb (a : multi_obj R) t p : multi_convert_to tb a t = Ok p ->
  exists m r, py_neg (VMulti a) = Ok (VMulti m) /\ multi_convert_to tb m t = Ok r /\ py_neg (VMulti p) = Ok (VMulti r).
Proof.
  intro hp. destruct a as [c v ta la]. destruct (convert_linear _ _ _ _ _ _ _ hp) as (k & pt & pb & -> & hk). do 2 eexists. split; [reflexivity|]. split; [apply hk|].
  cbn. unfold multi_neg. cbn. do 3 f_equal. lra.
Qed.
Lemma table_lin c n : In n (table_names c) -> exists q, dict_get (lin_table c) n = Some q.
Proof.
  intro h. destruct c; cbn in h; try contradiction; repeat (destruct h as [<-|h]; [eexists; reflexivity|]); contradiction.
Qed.
Lemma unit_commutes minus c n t (x y : R) u w : In n (table_names c) -> In t (table_names c) -> simple u c x n -> simple w c y n ->
  exists s p q r, plus_or_minus minus (VUnit u) (VUnit w) = Ok (VUnit s) /\ unit_convert_to tables0 u t = Ok p /\ unit_convert_to tables0 w t = Ok q /\
    unit_convert_to tables0 s t = Ok r /\ plus_or_minus minus (VUnit p) (VUnit q) = Ok (VUnit r).
Proof.
  intros hn ht (u1 & u2 & u3 & u4) (w1 & w2 & w3 & w4). destruct (table_lin c n hn) as [[qa qb] l1]. destruct (table_lin c t ht) as [[ta tb] l2].
  destruct u as [uc1 ux1 un1 ue1], w as [wc1 wx1 wn1 we1]. cbn [uc uv un ue] in *. subst.
  destruct (convert_lin _ _ _ x ue1 _ _ l1 l2 u4) as (p & ep & p1 & p2 & p3 & p4). destruct (convert_lin _ _ _ y we1 _ _ l1 l2 w4) as (q & eq_ & q1 & q2 & q3 & q4).
  destruct (convert_lin _ _ _ (pm minus x y) ue1 _ _ l1 l2 u4) as (r & er & r1 & r2 & r3 & r4).
  destruct (lin_entry _ _ _ _ l1) as (_ & _ & mk1 & _). destruct (lin_entry _ _ _ _ l2) as (_ & _ & mk2 & _).
  assert (es : forall v v' m e e', (forall v ex, mk_unit c (v : R) m ex = Ok (UO c v m ex)) -> ev e = ev e' -> plus_or_minus minus (VUnit (UO c v m e)) (VUnit (UO c v' m e')) = Ok (VUnit (UO c (pm minus v v') m e))).
  { intros v v' m e e' hm he. apply eeqb_iff in he. destruct minus; cbn; rewrite ucls_sub_refl, String.eqb_refl, he; cbn [andb]; rewrite hm; reflexivity. }
  exists (UO c (pm minus x y) n ue1), p, q, r. split; [apply es; [exact mk1|congruence]|]. split; [exact ep|]. split; [exact eq_|]. split; [exact er|].
  destruct (uconvert_two tables0 tables0 (UO c x n ue1) (UO c (pm minus x y) n ue1) t p r (conj eq_refl (conj eq_refl eq_refl)) ep er) as (_ & _ & k).
  destruct p as [pc px pn pe], q as [qc1 qx qn qe], r as [rc rx rn re]. cbn [uc uv un ue] in *. subst.
  rewrite es; [|exact mk2|congruence]. do 4 f_equal. symmetry. apply pm_r.
Qed.
Lemma temp_mk (v : R) n e : mk_unit Temperature v n e = Ok (UO Temperature v n e). Proof. reflexivity. Qed.
Lemma temp_commutes minus s t (x y : R) u w o p q r : simple u Temperature x (tname s) -> simple w Temperature y (tname s) -> plus_or_minus minus (VUnit u) (VUnit w) = Ok (VUnit o) ->
  unit_convert_to tables0 u (tname t) = Ok p -> unit_convert_to tables0 w (tname t) = Ok q -> unit_convert_to tables0 o (tname t) = Ok r ->
  (plus_or_minus minus (VUnit p) (VUnit q) = Ok (VUnit r) <-> s = t \/ (kelvin s 0 = 0 /\ kelvin t 0 = 0)).
Proof.
  intros hu hw ho ep eq_ er.
  assert (es : forall v v' m e e', ev e = ev e' -> plus_or_minus minus (VUnit (UO Temperature v m e)) (VUnit (UO Temperature v' m e')) = Ok (VUnit (UO Temperature (pm minus v v') m e))).
  { intros v v' m e e' he. apply eeqb_iff in he. destruct minus; cbn; rewrite String.eqb_refl, he; reflexivity. }
  pose proof hu as (u1 & u2 & u3 & u4). pose proof hw as (w1 & w2 & w3 & w4).
  assert (eo : o = UO Temperature (pm minus x y) (tname s) (ue u)).
  { destruct u as [uc1 ux1 un1 ue1], w as [wc1 wx1 wn1 we1]. cbn [uc uv un ue] in *. subst. rewrite es in ho by congruence. injection ho as <-. reflexivity. }
  assert (so : simple o Temperature (pm minus x y) (tname s)) by (subst o; repeat split; exact u4).
  destruct (temp_all s t x u hu) as (p' & a & e1 & (p1 & p2 & p3 & p4) & k1). destruct (temp_all s t y w hw) as (q' & b & e2 & (q1 & q2 & q3 & q4) & k2).
  destruct (temp_all s t _ o so) as (r' & c & e3 & (r1 & r2 & r3 & r4) & k3). rewrite ep in e1. injection e1 as <-. rewrite eq_ in e2. injection e2 as <-. rewrite er in e3. injection e3 as <-.
  assert (su : same_unit (VUnit u) (VUnit o)) by (subst o; refine (conj u1 (conj u3 eq_refl))).
  destruct (uconvert_two tables0 tables0 u o (tname t) p r su ep er) as (_ & _ & k).
  destruct p as [pc px pn pe], q as [qc1 qx qn qe], r as [rc rx rn re]. cbn [uc uv un ue] in *. subst. rewrite es by congruence.
  assert (g : Ok (VUnit (UO Temperature (pm minus a b) (tname t) re)) = Ok (VUnit (UO Temperature c (tname t) re)) <-> pm minus a b = c) by (split; [intro z; injection z as z; exact z|intros ->; reflexivity]).
  rewrite g. clear - k1 k2 k3. split.
  - intros <-. destruct s, t; try (left; reflexivity); cbn [kelvin] in *; destruct minus; cbn [pm] in *; first [right; split; lra | exfalso; lra].
  - intros [<-|[h1 h2]]; [destruct s; cbn [kelvin] in *; destruct minus; cbn [pm] in *; lra|].
    destruct s, t; cbn [kelvin] in *; destruct minus; cbn [pm] in *; lra.
Qed.
Lemma degrees_refuted : exists u w o p q r : unit_obj R, mk_unit Temperature 20 "C" (eint 1) = Ok u /\ mk_unit Temperature 30 "C" (eint 1) = Ok w /\ py_add (VUnit u) (VUnit w) = Ok (VUnit o) /\
  unit_convert_to tables0 u "K" = Ok p /\ unit_convert_to tables0 w "K" = Ok q /\ unit_convert_to tables0 o "K" = Ok r /\ py_add (VUnit p) (VUnit q) <> Ok (VUnit r).
Proof.
  pose (u := UO Temperature 20 "C" (eint 1)). pose (w := UO Temperature 30 "C" (eint 1)). pose (o := UO Temperature (20 + 30) "C" (eint 1)).
  assert (hu : simple u Temperature 20 (tname TC)) by (repeat split). assert (hw : simple w Temperature 30 (tname TC)) by (repeat split). assert (ho : simple o Temperature (20 + 30) (tname TC)) by (repeat split).
  destruct (temp_all TC TK 20 u hu) as (p & a & e1 & _). destruct (temp_all TC TK 30 w hw) as (q & b & e2 & _). destruct (temp_all TC TK _ o ho) as (r & c & e3 & _).
  exists u, w, o, p, q, r. assert (e : py_add (VUnit u) (VUnit w) = Ok (VUnit o)) by reflexivity. do 2 (split; [reflexivity|]). split; [exact e|]. do 3 (split; [assumption|]).
  intro h. apply (temp_commutes false TC TK 20 30 u w o p q r hu hw e e1 e2 e3) in h. destruct h as [h|[h _]]; [discriminate h|cbn in h; lra].
Qed.
(** Squares: both orders succeed, with the same result in special cases only. *)
Lemma square_converts c n t (v : R) e : In n (si_names c) -> In t (si_names c) -> n <> t -> standard c = Some n \/ standard c = Some t ->
  unit_convert_to tables0 (UO c v n e) (t +++ "^2") = Ok (UO c (v * (si n / si t) * (v * (si n / si t))) t (eflt (qc 2))).
Proof. intros h1 h2 h3 h4. apply (power_actual c n t "2" (qc 2) v _ e h1 h2 h3 h4 eq_refl py_float_2). apply Rpowq_two. Qed.
Lemma si_names_mk c n : In n (si_names c) -> forall (v : R) ex, mk_unit c v n ex = Ok (UO c v n ex).
Proof.
  intro h. destruct c; cbn in h; try contradiction; repeat (destruct h as [<-|h]; [intros; reflexivity|]); contradiction.
Qed.
Lemma squares_commute minus c n t (x y : R) e : In n (si_names c) -> In t (si_names c) -> n <> t -> standard c = Some n \/ standard c = Some t ->
  exists s p q r, plus_or_minus minus (VUnit (UO c x n e)) (VUnit (UO c y n e)) = Ok (VUnit s) /\ unit_convert_to tables0 (UO c x n e) (t +++ "^2") = Ok p /\
    unit_convert_to tables0 (UO c y n e) (t +++ "^2") = Ok q /\ unit_convert_to tables0 s (t +++ "^2") = Ok r /\
    (plus_or_minus minus (VUnit p) (VUnit q) = Ok (VUnit r) <-> y = 0 \/ (if minus then x = y else x = 0)).
Proof.
  intros hn ht hd hs.
  assert (es : forall v v' m e', In m (si_names c) -> plus_or_minus minus (VUnit (UO c v m e')) (VUnit (UO c v' m e')) = Ok (VUnit (UO c (pm minus v v') m e'))).
  { intros v v' m e' hm. pose proof (proj2 (eeqb_iff e' e') eq_refl) as he. destruct minus; cbn; rewrite ucls_sub_refl, String.eqb_refl, he; cbn [andb]; rewrite (si_names_mk c m hm); reflexivity. }
  do 4 eexists. split; [apply (es x y n e hn)|]. do 3 (split; [apply square_converts; assumption|]). rewrite (es _ _ t _ ht).
  set (k := si n / si t). assert (hk : k <> 0) by (unfold k; pose proof (si_pos n); pose proof (si_pos t); apply Rmult_integral_contrapositive_currified; [lra|apply Rinv_neq_0_compat; lra]).
  assert (h2 : k * k <> 0) by (apply Rmult_integral_contrapositive_currified; assumption).
  assert (g : forall a b, Ok (VUnit (UO c a t (eflt (qc 2)))) = Ok (VUnit (UO c b t (eflt (qc 2)))) <-> a - b = 0) by (intros a b; split; [intro z; injection z as z; lra|intro z; do 3 f_equal; lra]).
  rewrite g. destruct minus; cbn [pm].
  - replace (x * k * (x * k) - y * k * (y * k) - (x - y) * k * ((x - y) * k)) with (k * k * (2 * (y * (x - y)))) by ring. split.
    + intro z. apply Rmult_integral in z. destruct z as [z|z]; [contradiction|]. assert (z' : y * (x - y) = 0) by lra. apply Rmult_integral in z'. destruct z'; [left|right]; lra.
    + intros [->| ->]; ring.
  - replace (x * k * (x * k) + y * k * (y * k) - (x + y) * k * ((x + y) * k)) with (k * k * (- 2 * (y * x))) by ring. split.
    + intro z. apply Rmult_integral in z. destruct z as [z|z]; [contradiction|]. assert (z' : y * x = 0) by lra. apply Rmult_integral in z'. exact z'.
    + intros [->| ->]; ring.
Qed.
Definition speed_a : multi_obj R := MO MMulti 3 [BU "km" (eflt (qc 1))] [BU "hr" (eflt (qc 1))].
Definition speed_b : multi_obj R := MO MMulti 4 [BU "km" (eflt (qc 1))] [BU "hr" (eflt (qc 1))].
Lemma commute_case : mk_multi MMulti 3 "km/hr" = Ok speed_a /\ mk_multi MMulti 4 "km/hr" = Ok speed_b /\ (exists s, py_add (VMulti speed_a) (VMulti speed_b) = Ok s) /\
  (exists p, multi_convert_to tables0 speed_a "ft/s" = Ok p) /\ In "ft" (table_names Length) /\ In "mile" (table_names Length) /\ simple (UO Length 5 "ft" (eint 1)) Length 5 "ft".
Proof.
  split; [reflexivity|]. split; [reflexivity|]. split; [eexists; reflexivity|]. split.
  - apply (convert_total speed_a "ft/s" [BU "ft" (eflt (qc 1))] [BU "s" (eflt (qc 1))]).
    + vm_compute. repeat (f_equal; try (apply Qc_is_canon; reflexivity)).
    + apply Forall_forall. intros l [<-|[<-|[<-|[<-|[]]]]]; apply safe_half_b; vm_compute; reflexivity.
    + intro b. destruct b; apply Qc_is_canon; reflexivity.
  - split; [cbn; tauto|]. split; [cbn; tauto|]. repeat split.
Qed.
