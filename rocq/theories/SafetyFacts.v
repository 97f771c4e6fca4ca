(** * SafetyFacts: process safety, the Arrhenius relation, gas constants *)
From Coq Require Import String Ascii List ZArith QArith Qcanon Bool Reals Qreals Lia Lra.
From Verif Require Import Py Num UnitsData UnitsStruct Units NumFacts Spec SpecFacts StructFacts
  OpFacts NamesFacts ClosureFacts FactorFacts LawFacts WitnessFacts OpPropFacts Solve Formulas FormulaSpec SemFacts SymFacts SweepFacts SimFacts ConductionFacts TransportFacts DimlessFacts.
Import ListNotations.
Local Open Scope string_scope.
Local Open Scope list_scope.
Local Open Scope R_scope.

(** ** Vessels *)
Definition f_cyl := FDiv (FMul (FVar 0) (FVar 1)) (FAdd (FVar 2) (FMul (FNum 0.6) (FVar 1))).
Definition f_sph := FDiv (FMul (FMul (FNum 2) (FVar 1)) (FVar 0)) (FAdd (FVar 2) (FMul (FNum 0.2) (FVar 1))).
Lemma cyl_run a b c : max_vessel_pressure a b c "cylinder" = run [a; b; c] f_cyl. Proof. reflexivity. Qed.
Lemma sph_run a b c : max_vessel_pressure a b c "sphere" = run [a; b; c] f_sph. Proof. reflexivity. Qed.
Definition vessel_sys p l : bool :=
  sys_ok [ssimple Pressure p; ssimple Length l; ssimple Length l] f_cyl (is_unit p) && sys_ok [ssimple Pressure p; ssimple Length l; ssimple Length l] f_sph (is_unit p).
Lemma vessel_sweep : forallb (fun p => forallb (vessel_sys p) lengths) pressures = true.
Proof. vm_compute. reflexivity. Qed.
Lemma vessel_units p l (S t r : R) vS vt vr : In p pressures -> In l lengths ->
  simple Pressure S p = Ok vS -> simple Length t l = Ok vt -> simple Length r l = Ok vr -> 0 < t -> 0 < r ->
  (exists u, max_vessel_pressure vS vt vr "cylinder" = Ok (VUnit u) /\ un u = p /\ ev (ue u) = qc 1 /\ uv u = S * t / (r + 0.6 * t)) /\
  (exists u, max_vessel_pressure vS vt vr "sphere" = Ok (VUnit u) /\ un u = p /\ ev (ue u) = qc 1 /\ uv u = 2 * t * S / (r + 0.2 * t)).
Proof.
  intros ip il e1 e2 e3 ht hr. pose proof (sweep2 _ _ _ _ _ vessel_sweep ip il) as hs. unfold vessel_sys in hs. apply andb_true_iff in hs. destruct hs as [s1 s2].
  assert (hm : makes_all [ssimple Pressure p; ssimple Length l; ssimple Length l] [vS; vt; vr] [S; t; r]) by make.
  split.
  - destruct (sys_sound _ _ _ _ _ hm s1) as [q [e [k [v _]]]]; [cbn; repeat split; lra|].
    destruct (is_unit_ok _ _ k) as [u [-> [n x]]]. exists u. rewrite cyl_run. auto.
  - destruct (sys_sound _ _ _ _ _ hm s2) as [q [e [k [v _]]]]; [cbn; repeat split; lra|].
    destruct (is_unit_ok _ _ k) as [u [-> [n x]]]. exists u. rewrite sph_run. auto.
Qed.
Lemma vessel_value S t r q : plain_val S -> plain_val t -> plain_val r -> 0 < value t -> 0 < value r ->
  (max_vessel_pressure S t r "cylinder" = Ok q -> value q = value S * value t / (value r + 0.6 * value t)) /\
  (max_vessel_pressure S t r "sphere" = Ok q -> value q = 2 * value t * value S / (value r + 0.2 * value t)).
Proof.
  intros p1 p2 p3 ht hr. split; intro h.
  - rewrite cyl_run in h. destruct (run_value _ _ _ h ltac:(pl)) as [e _]; [cbn; repeat split; lra|]. exact e.
  - rewrite sph_run in h. destruct (run_value _ _ _ h ltac:(pl)) as [e _]; [cbn; repeat split; lra|]. exact e.
Qed.
Lemma vessel_shape S t r s : s <> "cylinder" -> s <> "sphere" -> max_vessel_pressure S t r s = Raise ETypeError.
Proof. intros h1 h2. unfold max_vessel_pressure. apply String.eqb_neq in h1. apply String.eqb_neq in h2. rewrite h1, h2. reflexivity. Qed.

(** ** Rates *)
Lemma far_value n h : h <> 0 -> FAR (VNum n) (VNum h) = Ok (VNum (n * 10 ^ 9 / h)).
Proof. intro hz. unfold FAR, omul, odiv. cbn [bind py_mul py_div]. rewrite pydiv_ok by exact hz. cbn [rmap bind nmul Rnum]. do 3 f_equal. ring. Qed.
Lemma osha_value n h : h <> 0 -> OSHA_incidence_rate (VNum n) (VNum h) = Ok (VNum (n * 200000 / h)).
Proof. intro hz. unfold OSHA_incidence_rate, omul, odiv. cbn [bind py_mul py_div]. rewrite pydiv_ok by exact hz. reflexivity. Qed.
Lemma far_refuted n h : n <> 0 -> h <> 0 -> FAR (VNum n) (VNum h) <> Ok (VNum (n * 10 ^ 8 / h)).
Proof.
  intros hn hz e. rewrite far_value in e by exact hz. injection e as e. unfold Rdiv in e. apply Rmult_eq_reg_r in e; [|apply Rinv_neq_0_compat; exact hz].
  apply Rmult_eq_reg_l in e; [|exact hn]. lra.
Qed.

(** ** Ventilation *)
Definition f_enc := FDiv (FMul (FNum 10000000) (FMul (FMul (FVar 0) (FVar 1)) (FVar 2))) (FMul (FMul (FMul (FVar 3) (FVar 4)) (FVar 5)) (FVar 6)).
Definition f_ppm := FDiv (FVar 0) (FDiv (FMul (FNum 10000000) (FMul (FVar 1) (FVar 2))) (FMul (FVar 3) (FVar 4))).
Lemma enc_run a b c d e f g : enclosure_concentration a b c d e f g = run [a; b; c; d; e; f; g] f_enc. Proof. reflexivity. Qed.
Lemma ppm_run a b c d e : ppm_to_other a b c d e = run [a; b; c; d; e] f_ppm. Proof. reflexivity. Qed.
Definition smm (s : string) : res sval := rmap VMulti (mk_multi MMulti tt s).
Lemma mm_makes x s v : constant x s = Ok v -> makes (smm s) v x.
Proof.
  unfold constant, smm, mk_multi. destruct (String.eqb s EmptyString).
  - intro h. injection h as <-. split; [reflexivity|]. split; [reflexivity|exact I].
  - destruct (parse_units s) as [p|]; cbn [bind rmap]; [|discriminate]. intro h. injection h as <-. split; [reflexivity|]. split; [reflexivity|exact I].
Qed.
Definition vent_args (q : string * string * string * string * string * string) : list (res sval) :=
  let '(m, r, f, p, w, _) := q in
  [smulti "MassFlowRate" m; smm r; ssimple Temperature "K"; snum; smulti "VolumetricFlowrate" f; ssimple Pressure p; smulti "MolecularWeight" w].
Definition ppm_args (q : string * string * string * string * string * string) : list (res sval) :=
  let '(m, r, f, p, w, _) := q in [snum; smm r; ssimple Temperature "K"; ssimple Pressure p; smulti "MolecularWeight" w].
(** mass per volume *)
Definition conc_of (q : string * string * string * string * string * string) : sval -> bool := fun s =>
  let '(m, r, f, p, w, v) := q in
  match s with VMulti o =>
    match split_on "/" w, mtop o, mbot o with
    | M :: _, [x], [y] => String.eqb (bname x) M && e_is (bexp x) 1 &&
        ((String.eqb v "L" && String.eqb (bname y) "L" && e_is (bexp y) 1) || (String.eqb v "m^3" && String.eqb (bname y) "m" && e_is (bexp y) 3))
    | _, _, _ => false
    end
  | _ => false end.
Definition vent_sys q : bool := sys_ok (vent_args q) f_enc is_num && sys_ok (ppm_args q) f_ppm (conc_of q).
Lemma vent_sweep : forallb vent_sys vent_texts = true.
Proof. vm_compute. reflexivity. Qed.
Lemma vent_units sm sr sf sp sw sv (Qm Rg T k Qv P M : R) v1 v2 v3 v5 v6 v7 : In (sm, sr, sf, sp, sw, sv) vent_texts ->
  multi "MassFlowRate" Qm sm = Ok v1 -> constant Rg sr = Ok v2 -> simple Temperature T "K" = Ok v3 ->
  multi "VolumetricFlowrate" Qv sf = Ok v5 -> simple Pressure P sp = Ok v6 -> multi "MolecularWeight" M sw = Ok v7 ->
  Rg <> 0 -> T <> 0 -> k <> 0 -> Qv <> 0 -> P <> 0 -> M <> 0 ->
  enclosure_concentration v1 v2 v3 (VNum k) v5 v6 v7 = Ok (VNum (10 ^ 7 * (Qm * Rg * T / (k * Qv * P * M)))) /\
  forall c, exists m, ppm_to_other (VNum c) v2 v3 v6 v7 = Ok (VMulti m) /\ mv m = c * (P * M) / (10 ^ 7 * (Rg * T)).
Proof.
  intros hi e1 e2 e3 e5 e6 e7 n1 n2 n3 n4 n5 n6. pose proof (in_sweep _ _ _ vent_sweep hi) as hs. unfold vent_sys in hs. apply andb_true_iff in hs. destruct hs as [s1 s2].
  split.
  - assert (hm : makes_all (vent_args (sm, sr, sf, sp, sw, sv)) [v1; v2; v3; VNum k; v5; v6; v7] [Qm; Rg; T; k; Qv; P; M]).
    { unfold vent_args. apply makes_cons; [apply multi_makes; exact e1|]. apply makes_cons; [apply mm_makes; exact e2|]. make. }
    destruct (sys_sound _ _ _ _ _ hm s1) as [r [e [n [v _]]]]; [cbn; repeat split; nzs|]. rewrite enc_run, e. rewrite (is_num_ok r n), v. cbn. do 2 f_equal. field. repeat split; assumption.
  - intro c. assert (hm : makes_all (ppm_args (sm, sr, sf, sp, sw, sv)) [VNum c; v2; v3; v6; v7] [c; Rg; T; P; M]).
    { unfold ppm_args. apply makes_cons; [apply num_makes|]. apply makes_cons; [apply mm_makes; exact e2|]. make. }
    destruct (sys_sound _ _ _ _ _ hm s2) as [r [e [n [v _]]]]; [cbn; repeat split; nzs|]. rewrite ppm_run, e.
    destruct r as [| | | |m]; try discriminate n. exists m. split; [reflexivity|]. cbn in v. rewrite v. field. repeat split; assumption.
Qed.
(** The values of the two functions in general. *)
Lemma enc_value Qm Rg T k Qv P M r : plain_val Qm -> plain_val Rg -> plain_val T -> plain_val k -> plain_val Qv -> plain_val P -> plain_val M ->
  value k <> 0 -> value Qv <> 0 -> value P <> 0 -> value M <> 0 -> enclosure_concentration Qm Rg T k Qv P M = Ok r ->
  value r = 10 ^ 7 * (value Qm * value Rg * value T / (value k * value Qv * value P * value M)).
Proof.
  intros p1 p2 p3 p4 p5 p6 p7 n1 n2 n3 n4 h. rewrite enc_run in h. destruct (run_value _ _ _ h ltac:(pl)) as [e _]; [cbn; repeat split; nzs|].
  rewrite e. cbn. field. repeat split; assumption.
Qed.
Lemma vent_back Qm Rg T k Qv P M r c : plain_val Qm -> plain_val Rg -> plain_val T -> plain_val k -> plain_val Qv -> plain_val P -> plain_val M ->
  value Rg <> 0 -> value T <> 0 -> value k <> 0 -> value Qv <> 0 -> value P <> 0 -> value M <> 0 ->
  enclosure_concentration Qm Rg T k Qv P M = Ok r -> ppm_to_other r Rg T P M = Ok c ->
  value c = value Qm / (value k * value Qv).
Proof.
  intros p1 p2 p3 p4 p5 p6 p7 n1 n2 n3 n4 n5 n6 h h'. pose proof (enc_value _ _ _ _ _ _ _ _ p1 p2 p3 p4 p5 p6 p7 n3 n4 n5 n6 h) as er.
  rewrite enc_run in h. destruct (run_value _ _ _ h ltac:(pl)) as [_ [pr _]]; [cbn; repeat split; nzs|].
  rewrite ppm_run in h'. destruct (run_value _ _ _ h' ltac:(pl)) as [e _]; [cbn; repeat split; nzs|].
  rewrite e. cbn. rewrite er. field. repeat split; assumption.
Qed.

(** ** The Arrhenius relation *)
Definition f_ak := FMul (FVar 0) (FFun exp (FDiv (FNeg (FVar 1)) (FMul (FVar 2) (FVar 3)))).
Definition f_ae := FMul (FMul (FNeg (FLog (FDiv (FVar 4) (FVar 0)))) (FVar 2)) (FVar 3).
Definition f_at := FDiv (FNum 1) (FDiv (FMul (FLog (FDiv (FVar 4) (FVar 0))) (FVar 2)) (FNeg (FVar 1))).
Definition f_aa := FDiv (FVar 4) (FFun exp (FMul (FDiv (FNeg (FVar 1)) (FVar 2)) (FVar 3))).
Lemma order_units o s : In (o, s) orders -> arrhenius_units o = Ok s.
Proof. intro h. repeat (destruct h as [h|h]; [injection h as <- <-; reflexivity|]). destruct h. Qed.
Ltac arr hu hA :=
  unfold arrhenius, decorated;
  match goal with |- context [wrapper ?a ?b ?c ?d ?e] => let w := eval cbn - [QcR] in (wrapper a b c d e) in change (wrapper a b c d e) with w end;
  cbn [bind fst snd]; unfold arrhenius_body; rewrite hu; cbn [bind];
  match goal with |- context [param ?e "A"] => let w := eval cbv in (param e "A") in change (param e "A") with w end;
  cbn [bind]; unfold constant in hA; rewrite hA; reflexivity.
Lemma ak_run o s A vA Ea R_ T : arrhenius_units o = Ok s -> constant A s = Ok vA ->
  arrhenius o [AVal (VNum A); AVal Ea; AVal R_; AVal T] [] = run [vA; Ea; R_; T] f_ak.
Proof. intros hu hA. arr hu hA. Qed.
Lemma ae_run o s A vA x R_ T k : arrhenius_units o = Ok s -> constant A s = Ok vA ->
  arrhenius o [AVal (VNum A); ANone; AVal R_; AVal T; AVal k] [] = run [vA; x; R_; T; k] f_ae.
Proof. intros hu hA. arr hu hA. Qed.
Lemma at_run o s A vA Ea R_ x k : arrhenius_units o = Ok s -> constant A s = Ok vA ->
  arrhenius o [AVal (VNum A); AVal Ea; AVal R_; ANone; AVal k] [] = run [vA; Ea; R_; x; k] f_at.
Proof. intros hu hA. arr hu hA. Qed.
Lemma aa_run o s vA Ea R_ T k : arrhenius_units o = Ok s -> constant 1 s = Ok vA ->
  arrhenius o [ANone; AVal Ea; AVal R_; AVal T; AVal k] [] = run [vA; Ea; R_; T; k] f_aa.
Proof. intros hu hA. arr hu hA. Qed.

Definition arr_args (q : string * string * string * string) : list (res sval) :=
  let '(s, e, r, th) := q in [smm s; smulti "ActivationEnergy" e; smm r; ssimple Temperature th].
Definition arr_args5 (q : string * string * string * string) : list (res sval) := arr_args q ++ [smulti "KineticConstant" (let '(s, e, r, th) := q in s)].
Definition units_of (s : res sval) : sval -> bool := fun v =>
  match s, v with Ok (VMulti m), VMulti n => half_eqb (mtop n) (mtop m) && half_eqb (mbot n) (mbot m) | _, _ => false end.
Definition f_aback := FLet f_ak (FMul (FMul (FNeg (FLog (FDiv (FVar 0) (FVar 1)))) (FVar 3)) (FVar 4)).
Definition sraises args f e : bool :=
  match seq args with Ok l => forallb plain_sb l && match srun l f with Raise e' => match e, e' with ETypeError, ETypeError => true | _, _ => false end | Ok _ => false end | Raise _ => false end.
Definition arr_sys (q : string * string * string * string) : bool :=
  sys_ok (arr_args q) f_ak (units_of (smulti "KineticConstant" (let '(s, e, r, th) := q in s))) &&
  sys_ok (arr_args q) f_aback (units_of (smulti "ActivationEnergy" (let '(s, e, r, th) := q in e))) &&
  sraises (arr_args5 q) f_at ETypeError && sraises (arr_args5 q) f_aa ETypeError.
Lemma arr_sweep : forallb arr_sys arr_texts = true.
Proof. vm_compute. reflexivity. Qed.
Lemma units_of_ok c x s v (r : val) : multi c x s = Ok v -> units_of (smulti c s) (erase r) = true -> kind r = KMulti /\ shape r = shape v.
Proof.
  intros h k. destruct (multi_makes c x s v h) as [e _]. rewrite e in k. unfold units_of in k. destruct v as [| | | |m]; try discriminate k. destruct r as [| | | |n]; try discriminate k.
  cbn in k. apply andb_true_iff in k. destruct k as [k1 k2]. split; [reflexivity|]. cbn [shape].
  assert (hh : forall a b, half_eqb a b = true -> map (fun x => (bname x, ev (bexp x))) a = map (fun x => (bname x, ev (bexp x))) b).
  { induction a as [|x0 a IH]; destruct b as [|y b]; cbn; try discriminate; [reflexivity|]. intro hb. apply andb_true_iff in hb. destruct hb as [h1 h2].
    rewrite (IH b h2). f_equal. unfold bu_eqb in h1. apply andb_true_iff in h1. destruct h1 as [h1 h3]. apply String.eqb_eq in h1.
    unfold eeqb in h3. apply Qc_eq_bool_correct in h3. congruence. }
  rewrite (hh _ _ k1), (hh _ _ k2). reflexivity.
Qed.

Lemma sraises_ok args f : sraises args f ETypeError = true -> sys_raises args f ETypeError.
Proof.
  unfold sraises, sys_raises. destruct (seq args) as [l|]; [|discriminate]. intro h. apply andb_true_iff in h. destruct h as [h1 h2].
  split; [exact h1|]. destruct (srun l f) as [|e]; [discriminate|]. destruct e; try discriminate. reflexivity.
Qed.
Section Arr.
  Variables (o : expo) (s e r th : string) (A Ea Rg T : R) (vA vE vR vT : val).
  Hypotheses (ho : In (o, s) orders) (hi : In (s, e, r, th) arr_texts) (hA : constant A s = Ok vA)
    (hE : multi "ActivationEnergy" Ea e = Ok vE) (hR : constant Rg r = Ok vR) (hT : simple Temperature T th = Ok vT).
  Lemma arr_makes : makes_all (arr_args (s, e, r, th)) [vA; vE; vR; vT] [A; Ea; Rg; T].
  Proof.
    unfold arr_args. apply makes_cons; [apply mm_makes; exact hA|]. apply makes_cons; [apply multi_makes; exact hE|].
    apply makes_cons; [apply mm_makes; exact hR|]. apply makes_cons; [apply simple_makes; exact hT|apply makes_nil].
  Qed.
  Lemma arr_parts : sys_ok (arr_args (s, e, r, th)) f_ak (units_of (smulti "KineticConstant" s)) = true /\
    sys_ok (arr_args (s, e, r, th)) f_aback (units_of (smulti "ActivationEnergy" e)) = true /\
    sys_raises (arr_args5 (s, e, r, th)) f_at ETypeError /\ sys_raises (arr_args5 (s, e, r, th)) f_aa ETypeError.
  Proof.
    pose proof (in_sweep _ _ _ arr_sweep hi) as hs. unfold arr_sys in hs. rewrite !andb_true_iff in hs. destruct hs as [[[h1 h2] h3] h4].
    repeat split; try assumption; apply sraises_ok; assumption.
  Qed.
  Lemma arr_k : Rg <> 0 -> T <> 0 -> exists k, arrhenius o [AVal (VNum A); AVal vE; AVal vR; AVal vT] [] = Ok k /\
    value k = A * exp (- Ea / (Rg * T)) /\ kind k = KMulti /\ shape k = shape vA /\ plain_val k.
  Proof.
    intros n1 n2. rewrite (ak_run o s A vA) by (try exact hA; apply order_units; exact ho). destruct arr_parts as [h1 _].
    destruct (sys_sound _ _ _ _ _ arr_makes h1) as [k [ek [u [v pk]]]]; [cbn; repeat split; nzs|]. exists k. split; [exact ek|]. split; [exact v|].
    assert (hm : exists w, multi "KineticConstant" A s = Ok w /\ shape w = shape vA).
    { unfold constant, multi, mk_multi in *. destruct (String.eqb s EmptyString); [injection hA as <-; eexists; split; reflexivity|].
      destruct (parse_units s); [|discriminate]. cbn [bind rmap] in *. injection hA as <-. eexists. split; reflexivity. }
    destruct hm as [w [ew sw]]. destruct (units_of_ok _ _ _ _ _ ew u) as [kk ks]. rewrite ks, sw. auto.
  Qed.
  Lemma arr_back : 0 < A -> Rg <> 0 -> T <> 0 -> exists k E', arrhenius o [AVal (VNum A); AVal vE; AVal vR; AVal vT] [] = Ok k /\
    value k = A * exp (- Ea / (Rg * T)) /\ shape k = shape vA /\
    arrhenius o [AVal (VNum A); ANone; AVal vR; AVal vT; AVal k] [] = Ok E' /\ value E' = Ea /\ shape E' = shape vE.
  Proof.
    intros n0 n1 n2. destruct (arr_k n1 n2) as [k [ek [v [_ [sk _]]]]]. destruct arr_parts as [_ [h2 _]].
    pose proof (exp_pos (- Ea / (Rg * T))) as hp.
    destruct (sys_sound _ _ _ _ _ arr_makes h2) as [E' [e' [u [v' _]]]].
    { cbn. repeat split; nzs. apply div_pos; [apply Rmult_lt_0_compat; assumption|assumption]. }
    cbn [run f_aback] in e'. rewrite (ak_run o s A vA) in ek by (try exact hA; apply order_units; exact ho).
    fold f_ak in e'. rewrite ek in e'. cbn [bind] in e'. exists k, E'.
    split; [rewrite (ak_run o s A vA) by (try exact hA; apply order_units; exact ho); exact ek|]. split; [exact v|]. split; [exact sk|].
    split; [rewrite (ae_run o s A vA VNone) by (try exact hA; apply order_units; exact ho); exact e'|].
    split; [|apply (units_of_ok _ _ _ _ _ hE u)].
    rewrite v'. cbn. replace (A * exp (- Ea / (Rg * T)) / A) with (exp (- Ea / (Rg * T))) by (field; lra). rewrite ln_exp. field. split; assumption.
  Qed.
  Lemma arr_T k vk : multi "KineticConstant" k s = Ok vk -> 0 < A -> 0 < k -> k <> A -> Rg <> 0 -> Ea <> 0 ->
    arrhenius o [AVal (VNum A); AVal vE; AVal vR; ANone; AVal vk] [] = Raise ETypeError.
  Proof.
    intros hk n0 n1 n2 n3 n4. rewrite (at_run o s A vA vE vR vT) by (try exact hA; apply order_units; exact ho). destruct arr_parts as [_ [_ [h _]]].
    assert (hm : makes_all (arr_args5 (s, e, r, th)) [vA; vE; vR; vT; vk] [A; Ea; Rg; T; k]).
    { unfold arr_args5, arr_args. cbn [app]. apply makes_cons; [apply mm_makes; exact hA|]. apply makes_cons; [apply multi_makes; exact hE|].
      apply makes_cons; [apply mm_makes; exact hR|]. apply makes_cons; [apply simple_makes; exact hT|]. apply makes_cons; [apply multi_makes; exact hk|apply makes_nil]. }
    apply (sys_raise _ _ _ _ _ hm h). cbn. repeat split; nzs. apply div_pos; assumption.
  Qed.
End Arr.
Lemma arr_A o s e r th (Ea Rg T k : R) vE vR vT vk : In (o, s) orders -> In (s, e, r, th) arr_texts ->
  multi "ActivationEnergy" Ea e = Ok vE -> constant Rg r = Ok vR -> simple Temperature T th = Ok vT -> multi "KineticConstant" k s = Ok vk -> Rg <> 0 ->
  arrhenius o [ANone; AVal vE; AVal vR; AVal vT; AVal vk] [] = Raise ETypeError.
Proof.
  intros ho hi hE hR hT hk n1.
  assert (hA : exists vA, constant 1 s = Ok vA).
  { repeat (destruct ho as [ho|ho]; [injection ho as <- <-; eexists; reflexivity|]). destruct ho. }
  destruct hA as [vA hA]. rewrite (aa_run o s vA) by (try exact hA; apply order_units; exact ho).
  destruct (arr_parts s e r th hi) as [_ [_ [_ h]]].
  assert (hm : makes_all (arr_args5 (s, e, r, th)) [vA; vE; vR; vT; vk] [1; Ea; Rg; T; k]).
  { unfold arr_args5, arr_args. cbn [app]. apply makes_cons; [apply mm_makes; exact hA|]. apply makes_cons; [apply multi_makes; exact hE|].
    apply makes_cons; [apply mm_makes; exact hR|]. apply makes_cons; [apply simple_makes; exact hT|]. apply makes_cons; [apply multi_makes; exact hk|apply makes_nil]. }
  apply (sys_raise _ _ _ _ _ hm h). cbn. repeat split; nzs. apply Rgt_not_eq, exp_pos.
Qed.
(** Order 2: the units of A are the displayed form read back, so k does not cancel. *)
Definition unr_m (r : res (pyval Q)) : pyval Q := match r with Ok x => x | Raise _ => VNone end.
Lemma units2 : arrhenius_units (eint 2) = Ok "L¹ / mol * s".
Proof.
  pose (a := unr_m (qmulti "Concentration" 1 "mol/L")). pose (t := unr_m (qsimple Time 1 "s")).
  pose (f := QDiv (QPow (QVar 0) (esub (eint 1) (eint 2))) (QVar 1)).
  pose proof (qrun_ok f [a; t] (unr_m (qrun [a; t] f)) ltac:(vm_compute; reflexivity)) as h.
  assert (ha : multi "Concentration" 1 "mol/L" = Ok (vmap a)) by (apply (multi_q _ _ 1); [q2|vm_compute; reflexivity]).
  assert (ht : simple Time 1 "s" = Ok (vmap t)) by (apply (simple_q _ _ 1); [q2|vm_compute; reflexivity]).
  unfold arrhenius_units. cbn [e_is]. unfold multi in ha. rewrite ha. unfold simple in ht. rewrite ht.
  change (e_is (eint 2) 0) with false. change (e_is (eint 2) 1) with false. cbn [bind].
  cbn [map run to_fx f var nth_error] in h. unfold odiv in *. cbn [bind] in *.
  destruct (opow (Ok (vmap a)) (esub (eint 1) (eint 2))) as [c|]; [|discriminate h]. cbn [bind] in *. rewrite h. cbn [bind].
  vm_compute. reflexivity.
Qed.
Lemma arr_order2 : exists vR vT vk, constant 8.314 "J/mol*K" = Ok vR /\ simple Temperature 350 "K" = Ok vT /\ multi "KineticConstant" 1 "L/mol*s" = Ok vk /\
  arrhenius (eint 2) [AVal (VNum 2); ANone; AVal vR; AVal vT; AVal vk] [] = Raise ETypeError.
Proof.
  destruct (constant 8.314 "J/mol*K") as [vR|] eqn:e1; [|discriminate]. destruct (simple Temperature 350 "K") as [vT|] eqn:e2; [|discriminate].
  pose (k := unr_m (qmulti "KineticConstant" 1 "L/mol*s")). pose (a := unr_m (rmap VMulti (mk_multi MMulti (2 # 1)%Q "L¹ / mol * s"))).
  assert (hk : multi "KineticConstant" 1 "L/mol*s" = Ok (vmap k)) by (apply (multi_q _ _ 1); [q2|vm_compute; reflexivity]).
  assert (ha : constant 2 "L¹ / mol * s" = Ok (vmap a)).
  { unfold constant, a. replace 2 with (Q2R (2 # 1)) by q2. vm_compute. reflexivity. }
  exists vR, vT, (vmap k). split; [reflexivity|]. split; [reflexivity|]. split; [exact hk|].
  rewrite (ae_run _ _ _ _ VNone _ _ _ units2 ha). cbn [run f_ae var nth_error].
  pose proof (qrun_ok (QDiv (QVar 0) (QVar 1)) [k; a] (unr_m (qrun [k; a] (QDiv (QVar 0) (QVar 1)))) ltac:(vm_compute; reflexivity)) as h.
  cbn [map run to_fx var nth_error] in h. rewrite h. reflexivity.
Qed.

(** ** Gas constants *)
Definition siq (n : string) : Q := match dict_get si_table n with Some x => x | None => 1%Q end.
Fixpoint qsz (l : half) : Q := match l with nil => 1%Q | x :: l => (Qpower (siq (bname x)) (Qnum (this (ev (bexp x)))) * qsz l)%Q end.
Lemma si_q n : si n = Q2R (siq n).
Proof. unfold si, siq. destruct (dict_get si_table n); [reflexivity|q2]. Qed.
Lemma qsz_ok l : forallb (fun x => is_int (ev (bexp x))) l = true -> usize si l = Q2R (qsz l).
Proof.
  induction l as [|x l IH]; [intros _; cbn; q2|]. cbn [forallb]. intro h. apply andb_true_iff in h. destruct h as [h1 h2].
  cbn [usize qsz]. rewrite (IH h2), Q2R_mult. f_equal. unfold is_int in h1. apply Pos.eqb_eq in h1.
  rewrite Q2R_power by (left; rewrite <- si_q; apply Rgt_not_eq, si_pos). rewrite <- si_q, powerRZ_Rpower by apply si_pos. f_equal.
  unfold QcR, Q2R. rewrite h1. cbn. field.
Qed.
Definition msz (v : sval) : option Q :=
  match v with VMulti m => if forallb (fun x => is_int (ev (bexp x))) (mtop m) && forallb (fun x => is_int (ev (bexp x))) (mbot m) then Some (qsz (mtop m) / qsz (mbot m))%Q else None | _ => None end.
Lemma msz_ok (v : val) q : msz (erase v) = Some q -> qty si v = Some (value v * Q2R q).
Proof.
  destruct v as [| | | |m]; try discriminate. cbn [erase msz mtop mbot]. destruct (forallb _ (mtop m)) eqn:e1; [|discriminate]. destruct (forallb _ (mbot m)) eqn:e2; [|discriminate].
  cbn [andb]. intro h. injection h as <-. cbn [qty value]. unfold msize. rewrite (qsz_ok _ e1), (qsz_ok _ e2).
  unfold Qdiv. rewrite Q2R_mult, Q2R_inv; [reflexivity|]. intro hz. apply Qeq_eqR in hz. rewrite <- (qsz_ok _ e2), Q2R_0 in hz.
  pose proof (usize_pos si (mbot m)). lra.
Qed.
Lemma constant_si x s q : match smm s with Ok v => msz v | Raise _ => None end = Some q -> exists v, constant x s = Ok v /\ qty si v = Some (x * Q2R q).
Proof.
  intro h. destruct (constant x s) as [v|e] eqn:ec.
  - destruct (mm_makes _ _ _ ec) as [e [hv _]]. rewrite e in h. exists v. split; [reflexivity|]. rewrite (msz_ok v q h), hv. reflexivity.
  - exfalso. unfold constant, smm, mk_multi in *. destruct (String.eqb s EmptyString); [discriminate|]. destruct (parse_units s); [discriminate|]. cbn in h. discriminate.
Qed.
Lemma gas_sizes g r p : In (g, r, p) gas_table -> exists v, g = Ok v /\ qty si v = Some r.
Proof.
  intro h. destruct h as [h|[h|[h|[h|[]]]]]; injection h as <- <- _.
  - destruct (constant_si 8.314 "J/mol*K" 1) as [v [e q]]; [vm_compute; reflexivity|]. exists v. split; [exact e|]. rewrite q. apply (f_equal Some). unfold Q2R. cbn. lra.
  - destruct (constant_si 8.314 "m^3*Pa/mol*K" 1) as [v [e q]]; [vm_compute; reflexivity|]. exists v. split; [exact e|]. rewrite q. apply (f_equal Some). unfold Q2R. cbn. lra.
  - destruct (constant_si 0.08205 "L*atm/mol*K" (101325 # 1000)) as [v [e q]]; [vm_compute; reflexivity|]. exists v. split; [exact e|]. rewrite q. apply (f_equal Some). unfold Q2R. cbn. lra.
  - destruct (constant_si (8.205746 / 10 ^ 5) "m^3*atm/mol*K" 101325) as [v [e q]]; [vm_compute; reflexivity|]. exists v. split; [exact e|]. rewrite q. apply (f_equal Some). unfold Q2R. cbn. lra.
Qed.
Lemma gas_agree g r p g' r' p' : In (g, r, p) gas_table -> In (g', r', p') gas_table -> Rabs (r - r') <= Rmax p p'.
Proof.
  intros h h'. destruct h as [h|[h|[h|[h|[]]]]]; injection h as _ <- <-; destruct h' as [h'|[h'|[h'|[h'|[]]]]]; injection h' as _ <- <-;
    (apply Rabs_le; split; unfold Rmax; destruct (Rle_dec _ _); lra).
Qed.
Lemma gas_half : exists g r p g' r' p', In (g, r, p) gas_table /\ In (g', r', p') gas_table /\ Rabs (r - r') > (p + p') / 2.
Proof.
  exists (get_gas_constant "K" "L" "atm" false), (0.08205 * 101.325), (0.00001 * 101.325), (get_gas_constant "K" "m^3" "atm" false), (8.205746 / 10 ^ 5 * 101325), (0.000001 / 10 ^ 5 * 101325).
  split; [right; right; left; reflexivity|]. split; [right; right; right; left; reflexivity|]. rewrite Rabs_left; lra.
Qed.
Lemma gas_other t v p : (v, p, t) <> ("m^3", "Pa", "K") -> (v, p, t) <> ("L", "atm", "K") -> (v, p, t) <> ("m^3", "atm", "K") -> get_gas_constant t v p false = Raise EValueError.
Proof.
  intros h1 h2 h3. unfold get_gas_constant.
  destruct (String.eqb_spec v "m^3"); destruct (String.eqb_spec p "Pa"); destruct (String.eqb_spec t "K"); destruct (String.eqb_spec v "L"); destruct (String.eqb_spec p "atm"); subst; cbn [andb]; try reflexivity; try congruence.
Qed.

Lemma gas_agree_full g r p g' r' p' : In (g, r, p) gas_table -> In (g', r', p') gas_table ->
  exists v v' x x', g = Ok v /\ g' = Ok v' /\ qty si v = Some x /\ qty si v' = Some x' /\ Rabs (x - x') <= Rmax p p'.
Proof.
  intros h h'. destruct (gas_sizes _ _ _ h) as [v [e1 q1]]. destruct (gas_sizes _ _ _ h') as [v' [e2 q2]].
  exists v, v', r, r'. split; [exact e1|]. split; [exact e2|]. split; [exact q1|]. split; [exact q2|]. exact (gas_agree _ _ _ _ _ _ h h').
Qed.
Lemma gas_half_full : exists g r p g' r' p' v v', In (g, r, p) gas_table /\ In (g', r', p') gas_table /\
  g = Ok v /\ g' = Ok v' /\ qty si v = Some r /\ qty si v' = Some r' /\ Rabs (r - r') > (p + p') / 2.
Proof.
  destruct gas_half as [g [r [p [g' [r' [p' [h [h' hh]]]]]]]]. destruct (gas_sizes _ _ _ h) as [v [e1 q1]]. destruct (gas_sizes _ _ _ h') as [v' [e2 q2]].
  exists g, r, p, g', r', p', v, v'. auto 10.
Qed.
(** The documented factor 10^6 against 10E6 in the code. *)
Lemma enc_refuted sm sr sf sp sw sv (Qm Rg T k Qv P M : R) v1 v2 v3 v5 v6 v7 : In (sm, sr, sf, sp, sw, sv) vent_texts ->
  multi "MassFlowRate" Qm sm = Ok v1 -> constant Rg sr = Ok v2 -> simple Temperature T "K" = Ok v3 ->
  multi "VolumetricFlowrate" Qv sf = Ok v5 -> simple Pressure P sp = Ok v6 -> multi "MolecularWeight" M sw = Ok v7 ->
  Qm <> 0 -> Rg <> 0 -> T <> 0 -> k <> 0 -> Qv <> 0 -> P <> 0 -> M <> 0 ->
  enclosure_concentration v1 v2 v3 (VNum k) v5 v6 v7 <> Ok (VNum (10 ^ 6 * (Qm * Rg * T / (k * Qv * P * M)))).
Proof.
  intros hi e1 e2 e3 e5 e6 e7 n0 n1 n2 n3 n4 n5 n6 h.
  destruct (vent_units _ _ _ _ _ _ Qm Rg T k Qv P M _ _ _ _ _ _ hi e1 e2 e3 e5 e6 e7 n1 n2 n3 n4 n5 n6) as [he _]. rewrite he in h. injection h as h.
  assert (hx : Qm * Rg * T / (k * Qv * P * M) <> 0) by nzs. apply hx. lra.
Qed.
