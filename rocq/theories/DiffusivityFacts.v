(** * DiffusivityFacts: diffusion coefficients *)
From Coq Require Import String Ascii List ZArith QArith Qcanon Bool Reals Qreals Lia Lra.
From Verif Require Import Py Num UnitsData UnitsStruct Units NumFacts Spec SpecFacts StructFacts
  OpFacts NamesFacts ClosureFacts FactorFacts LawFacts WitnessFacts PropFacts OpPropFacts Solve Formulas Correlations FormulaSpec TransferSpec ExchangeSpec SemFacts SymFacts SweepFacts SimFacts ParamFacts DimlessFacts ProbeFacts DenoteFacts UnlikeFacts CoefficientFacts GroupFacts PulseFacts ConvSpec ConvCases.
Import ListNotations.
Local Open Scope string_scope.
Local Open Scope list_scope.
Local Open Scope R_scope.

Definition qcon (s : string) : res qval := rmap VMulti (mk_multi MMulti 1%Q s).
(** ** Stokes-Einstein *)
Definition f_se := FDiv (FMul (FVar 0) (FVar 1)) (FMul (FMul (FMul (FNum 6) (FNum PI)) (FVar 2)) (FVar 3)).
Lemma se_sweep : forallb (fun mu => osys [qcon "m^2*kg/s^2*K"; qsimple Temperature 1 "K"; qmulti "DynamicViscosity" 1 mu; qsimple Length 1 "m"] f_se (in_unit "m^2/s")) ["kg/m*s"; "Pa*s"] = true.
Proof. vm_compute. reflexivity. Qed.
Lemma stokes_einstein_si u (T mu Ra : R) vT vmu vR : In u ["kg/m*s"; "Pa*s"] -> simple Temperature T "K" = Ok vT -> multi "DynamicViscosity" mu u = Ok vmu -> simple Length Ra "m" = Ok vR ->
  mu <> 0 -> Ra <> 0 ->
  exists r, stokes_einstein vT vmu vR = Ok r /\ value r = 1.380649 / 10 ^ 23 * T / (6 * PI * mu * Ra) /\ denotes r (1.380649 / 10 ^ 23 * T / (6 * PI * mu * Ra)) "m^2/s".
Proof.
  intros hu h1 h2 h3 nm nR. pose proof (proj1 (forallb_forall _ _) se_sweep _ hu) as hs. cbn beta in hs. unfold qcon in hs.
  unfold stokes_einstein, BOLTZMANS_CONSTANT. destruct (constant (1.380649 / 10 ^ 23) "m^2*kg/s^2*K") as [vc|] eqn:hc; [|vm_compute in hc; discriminate].
  match type of hs with osys ?q _ _ = _ => assert (hm : qmakes_all q [vc; vT; vmu; vR] [1.380649 / 10 ^ 23; T; mu; Ra]) by pmake end.
  destruct (denotes_run _ _ _ _ _ hm hs) as [r [e [v d]]].
  { cbn [def f_se num nth]. repeat split. pose proof PI_RGT_0. apply Rmult_integral_contrapositive. split; [|exact nR]. apply Rmult_integral_contrapositive. split; [|exact nm]. lra. }
  exists r. split; [exact e|]. split; [exact v|exact d].
Qed.
(** In other units of viscosity the number is that of m^2/s only after conversion: the
    unit of the result says so. *)
(** ** Ions *)
Definition f_io := FDiv (FMul (FMul (FVar 0) (FVar 1)) (FAdd (FDiv (FNum 1) (FVar 2)) (FDiv (FNum 1) (FVar 3)))) (FMul (FPow (FVar 6) (eint 2)) (FAdd (FDiv (FNum 1) (FVar 4)) (FDiv (FNum 1) (FVar 5)))).
Definition io_args (s : string) : list (res qval) := [qcon "J/mol*K"; qsimple Temperature 1 "K"; Ok (VNum 1%Q); Ok (VNum 1%Q); qcon s; qcon s; qcon "C/mol"].
Lemma io_m : osys (io_args "A*m^2/V*mol") f_io (in_unit "m^2/s") = true.
Proof. vm_compute. reflexivity. Qed.
Lemma inv_sum_nz a b : 0 < a -> 0 < b -> 1 / a + 1 / b <> 0.
Proof. intros ha hb. pose proof (Rinv_0_lt_compat a ha). pose proof (Rinv_0_lt_compat b hb). unfold Rdiv. lra. Qed.
Lemma ionic_si (R_ T np nm lp lm : R) vR vT vp vm : constant R_ "J/mol*K" = Ok vR -> simple Temperature T "K" = Ok vT -> constant lp "A*m^2/V*mol" = Ok vp -> constant lm "A*m^2/V*mol" = Ok vm ->
  np <> 0 -> nm <> 0 -> 0 < lp -> 0 < lm ->
  exists r, ionic_diffusion_coefficient vR vT (VNum np) (VNum nm) vp vm = Ok r /\ value r = io_value R_ T np nm lp lm /\ denotes r (io_value R_ T np nm lp lm) "m^2/s".
Proof.
  intros h1 h2 h3 h4 np0 nm0 pl pm. unfold ionic_diffusion_coefficient, FARADAYS_CONSTANT. destruct (constant 96500 "C/mol") as [vc|] eqn:hc; [|vm_compute in hc; discriminate].
  pose proof (inv_sum_nz _ _ pl pm) as hz.
  assert (hm : qmakes_all (io_args "A*m^2/V*mol") [vR; vT; VNum np; VNum nm; vp; vm; vc] [R_; T; np; nm; lp; lm; 96500]) by (unfold io_args, qcon; pmake).
  assert (hn : num [R_; T; np; nm; lp; lm; 96500] f_io = io_value R_ T np nm lp lm) by (cbn [num f_io nth]; rewrite powr2; reflexivity).
  destruct (denotes_run _ _ _ _ _ hm io_m) as [r [e [v d]]].
  { cbn [def f_io num nth]. repeat split; try assumption; try apply def2; try lra. rewrite powr2. apply Rmult_integral_contrapositive. split; [|exact hz]. lra. }
  rewrite hn in *. exists r. split; [exact e|]. split; [exact v|exact d].
Qed.
(** Runs with prefix factors. *)
Lemma factor_run ss vs xs f o t : qmakes_all ss vs xs -> probes ss f = Ok (o, t) -> pdef xs t f -> run vs f = Ok (obj o (pnum xs t f)).
Proof. intros h1 h2 h3. destruct (probes_sound _ _ _ _ _ _ h1 h2 h3) as [h _]. exact h. Qed.
Definition shape_of (ss : list (res qval)) (f : fx) : qval * qt := match probes ss f with Ok p => p | Raise _ => (VNone, QL) end.
(** cm^2 is converted. *)
Definition p_cm : qval * qt := Eval vm_compute in shape_of (io_args "A*cm^2/V*mol") f_io.
Lemma io_cm : probes (io_args "A*cm^2/V*mol") f_io = Ok (fst p_cm, snd p_cm).
Proof. vm_compute. reflexivity. Qed.
Lemma io_cm_unit : in_unit "m^2/s" (fst p_cm) = true.
Proof. vm_compute. reflexivity. Qed.
Ltac pn := cbn [pnum pdef scale tq tl tr nth snd fst Qeq_bool Qnum Qden Zeq_bool Z.compare Z.mul Pos.mul Pos.compare Pos.compare_cont].
Lemma ionic_cm (R_ T np nm lp lm : R) vR vT vp vm : constant R_ "J/mol*K" = Ok vR -> simple Temperature T "K" = Ok vT -> constant lp "A*cm^2/V*mol" = Ok vp -> constant lm "A*cm^2/V*mol" = Ok vm ->
  np <> 0 -> nm <> 0 -> 0 < lp -> 0 < lm ->
  exists r, ionic_diffusion_coefficient vR vT (VNum np) (VNum nm) vp vm = Ok r /\ denotes r (io_value R_ T np nm (lp / 10000) (lm / 10000)) "m^2/s".
Proof.
  intros h1 h2 h3 h4 np0 nm0 pl pm. unfold ionic_diffusion_coefficient, FARADAYS_CONSTANT. destruct (constant 96500 "C/mol") as [vc|] eqn:hc; [|vm_compute in hc; discriminate].
  pose proof (inv_sum_nz _ _ pl pm) as hz.
  assert (hm : qmakes_all (io_args "A*cm^2/V*mol") [vR; vT; VNum np; VNum nm; vp; vm; vc] [R_; T; np; nm; lp; lm; 96500]) by (unfold io_args, qcon; pmake).
  pose proof (factor_run _ _ _ _ _ _ hm io_cm) as hr.
  assert (hn : pnum [R_; T; np; nm; lp; lm; 96500] (snd p_cm) f_io = io_value R_ T np nm (lp / 10000) (lm / 10000)).
  { unfold f_io, p_cm. pn. rewrite powr2. unfold io_value. replace (Q2R (10000 # 1)) with 10000 by (unfold Q2R; cbn; lra). field. repeat split; try lra; try (intro; lra). 
     }
  rewrite hn in hr. eexists. split; [apply hr|].
  - unfold f_io, p_cm. pn. repeat split; try lra; try apply def2; try assumption. rewrite powr2. replace (Q2R (10000 # 1)) with 10000 by (unfold Q2R; cbn; lra).
    apply Rmult_integral_contrapositive. split; [|lra]. apply Rmult_integral_contrapositive. split; [lra|exact hz].
  - apply in_unit_ok; [reflexivity|exact io_cm_unit].
Qed.
(** The unit of the docstring, A/cm^2*V*mol, is not that of a molar conductivity. *)
Definition p_doc : qval * qt := Eval vm_compute in shape_of (io_args "A/cm^2*V*mol") f_io.
Lemma io_doc : probes (io_args "A/cm^2*V*mol") f_io = Ok (fst p_doc, snd p_doc).
Proof. vm_compute. reflexivity. Qed.
Lemma io_doc_unit : in_unit "m^-2*s^-1" (fst p_doc) = true.
Proof. vm_compute. reflexivity. Qed.
Lemma ionic_docstring (R_ T np nm lp lm : R) vR vT vp vm : constant R_ "J/mol*K" = Ok vR -> simple Temperature T "K" = Ok vT -> constant lp "A/cm^2*V*mol" = Ok vp -> constant lm "A/cm^2*V*mol" = Ok vm ->
  np <> 0 -> nm <> 0 -> 0 < lp -> 0 < lm ->
  exists r, ionic_diffusion_coefficient vR vT (VNum np) (VNum nm) vp vm = Ok r /\ denotes r (io_value R_ T np nm (10000 * lp) (10000 * lm)) "m^-2*s^-1".
Proof.
  intros h1 h2 h3 h4 np0 nm0 pl pm. unfold ionic_diffusion_coefficient, FARADAYS_CONSTANT. destruct (constant 96500 "C/mol") as [vc|] eqn:hc; [|vm_compute in hc; discriminate].
  pose proof (inv_sum_nz _ _ pl pm) as hz.
  assert (hm : qmakes_all (io_args "A/cm^2*V*mol") [vR; vT; VNum np; VNum nm; vp; vm; vc] [R_; T; np; nm; lp; lm; 96500]) by (unfold io_args, qcon; pmake).
  pose proof (factor_run _ _ _ _ _ _ hm io_doc) as hr.
  assert (hq : Q2R 0.0001 = / 10000) by (unfold Q2R; cbn; lra).
  assert (hn : pnum [R_; T; np; nm; lp; lm; 96500] (snd p_doc) f_io = io_value R_ T np nm (10000 * lp) (10000 * lm)).
  { unfold f_io, p_doc. pn. rewrite powr2. unfold io_value. rewrite hq. field. repeat split; try lra; try (intro; lra). }
  rewrite hn in hr. eexists. split; [apply hr|].
  - unfold f_io, p_doc. pn. repeat split; try lra; try apply def2; try assumption. rewrite powr2, hq.
    apply Rmult_integral_contrapositive. split; [|lra]. apply Rmult_integral_contrapositive. split; [lra|exact hz].
  - apply in_unit_ok; [reflexivity|exact io_doc_unit].
Qed.

(** ** Fuller *)
Definition f_ful := FLet (FDiv (FNum 2) (FAdd (FDiv (FNum 1) (FVar 2)) (FDiv (FNum 1) (FVar 3))))
 (FDiv (FMul (FNum 0.00143) (FPow (FVar 1) (eflt (Q2Qc (7 # 4))))) (FMul (FMul (FVar 2) (FPow (FVar 0) half_)) (FPow (FAdd (FPow (FVar 5) third_) (FPow (FVar 6) third_)) (eint 2)))).
Definition qN : res qval := Ok (VNum 1%Q).
Definition qK := qsimple Temperature 1 "K". Definition qP := qsimple Pressure 1 "atm". Definition qM := qmulti "MolecularWeight" 1 "g/mol". Definition qV := qcon "cm^3/mol".
Lemma ful_eq T P Ma Mb Va Vb : fullers_number T P Ma Mb Va Vb = run [T; P; Ma; Mb; Va; Vb] f_ful.
Proof. reflexivity. Qed.
Definition ful_tree (c : Q) : qt := QN 1 (QN 1 QL (QN 1 (QN 1 QL QL) (QN 1 QL QL)))
  (QN 1 (QN 1 QL (QN 1 QL QL)) (QN c (QN 1 QL (QN 1 QL QL)) (QN 1 (QN 1 (QN 1 QL QL) (QN 1 QL QL)) QL))).
Lemma scale_q q a b x : scale (QN q a b) x = x * Q2R q.
Proof. unfold scale. cbn [tq]. destruct (Qeq_bool q 1) eqn:e; [|reflexivity]. apply Qeq_bool_iff, Qeq_eqR in e. rewrite e, RMicromega.Q2R_1. ring. Qed.
Lemma div_mul a d q : d <> 0 -> q <> 0 -> a / (d * q) = a / d / q.
Proof. intros hd hq. field. split; assumption. Qed.
Lemma ful_pos a b : 0 < a -> 0 < b -> 0 < 2 / (1 / a + 1 / b).
Proof. intros ha hb. pose proof (Rinv_0_lt_compat a ha). pose proof (Rinv_0_lt_compat b hb). apply Rdiv_lt_0_compat; [lra|]. unfold Rdiv. lra. Qed.
Lemma ful_den P Ma Mb Va Vb : 0 < P -> 0 < Ma -> 0 < Mb -> 0 < P * sqrt (2 / (1 / Ma + 1 / Mb)) * (Rpower Va (1 / 3) + Rpower Vb (1 / 3)) ^ 2.
Proof.
  intros hP ha hb. apply Rmult_lt_0_compat; [apply Rmult_lt_0_compat; [exact hP|apply sqrt_lt_R0, ful_pos; assumption]|].
  apply pow_lt. apply Rplus_lt_0_compat; apply exp_pos.
Qed.
Lemma ful_run ss vs o c (T P Ma Mb Va Vb : R) : qmakes_all ss vs [T; P; Ma; Mb; Va; Vb] -> probes ss f_ful = Ok (o, ful_tree c) -> Q2R c <> 0 ->
  0 < T -> 0 < P -> 0 < Ma -> 0 < Mb -> 0 < Va -> 0 < Vb ->
  run vs f_ful = Ok (obj o (ful_value T P Ma Mb Va Vb / Q2R c)).
Proof.
  intros hm hp hc hT hP ha hb hVa hVb. pose proof (factor_run _ _ _ _ _ _ hm hp) as hr. pose proof (ful_pos _ _ ha hb) as hmab. pose proof (ful_den P Ma Mb Va Vb hP ha hb) as hd.
  pose proof (inv_sum_nz _ _ ha hb) as hz.
  assert (q74 : Q2R (7 # 4) = 7 / 4) by (unfold Q2R; cbn; lra).
  assert (e1 : powr T (eflt (Q2Qc (7 # 4))) = Rpower T (7 / 4)) by (rewrite powr_float, q74 by exact hT; reflexivity).
  assert (e3 : forall x, 0 < x -> powr x third_ = Rpower x (1 / 3)) by (intros x hx; unfold third_; rewrite powr_float, q3 by exact hx; reflexivity).
  assert (em : scale (QN 1 QL (QN 1 (QN 1 QL QL) (QN 1 QL QL))) (2 / (scale (QN 1 QL QL) (1 / Ma) + scale (QN 1 QL QL) (1 / Mb))) = 2 / (1 / Ma + 1 / Mb)) by (rewrite !scale_q, RMicromega.Q2R_1, !Rmult_1_r; reflexivity).
  assert (hn : pnum [T; P; Ma; Mb; Va; Vb] (ful_tree c) f_ful = ful_value T P Ma Mb Va Vb / Q2R c).
  { unfold f_ful, ful_tree. cbn [pnum tl tr nth]. rewrite em, !scale_q, !RMicromega.Q2R_1, !Rmult_1_r, e1, !e3, half_pow, powr2 by assumption. unfold ful_value. apply div_mul; lra. }
  rewrite hn in hr. apply hr. unfold f_ful, ful_tree. cbn [pdef pnum tl tr nth]. rewrite em, !scale_q, !RMicromega.Q2R_1, !Rmult_1_r, !e3, half_pow, powr2 by assumption.
  repeat split; try lra; try (apply powr_def; assumption); try apply def2. apply Rmult_integral_contrapositive. split; lra.
Qed.
(** Which arguments are objects: temperature, pressure, molecular weights, volumes. *)
Definition pick (b : bool) (x y : res qval) : res qval := if b then x else y.
Definition ful_args (bt bp bm bv : bool) : list (res qval) := [pick bt qK qN; pick bp qP qN; pick bm qM qN; pick bm qM qN; pick bv qV qN; pick bv qV qN].
(** The answer from which the coefficient is made, and its factor. *)
Definition ful_factor (bt bp bm bv : bool) : option Q :=
  if bm && bv then Some (1 # 10000)%Q else if negb bt && bp && negb bm && negb bv then None else Some 1%Q.
Definition ful_kind (bt bp bm bv : bool) (o : qval) : bool :=
  match o with
  | VMulti m => mcls_eqb (mc m) MMulti && (bt || bp || bm || bv) && negb (bt && negb bp && negb bm && negb bv)
  | VUnit u => bt && negb bp && negb bm && negb bv && String.eqb (un u) "K" && Qc_eq_bool (ev (ue u)) (qc 1)
  | VNum _ => negb (bt || bp || bm || bv)
  | _ => false
  end.
Fixpoint qt_same (a b : qt) : bool := match a, b with QL, QL => true | QN q x y, QN q' x' y' => (Z.eqb (Qnum q) (Qnum q') && Pos.eqb (Qden q) (Qden q')) && qt_same x x' && qt_same y y' | _, _ => false end.
Lemma qt_same_eq a : forall b, qt_same a b = true -> a = b.
Proof.
  induction a as [|q x IHx y IHy]; destruct b as [|q' x' y']; cbn; try discriminate; [reflexivity|]. intro h. apply andb_true_iff in h. destruct h as [h h3]. apply andb_true_iff in h. destruct h as [h1 h2].
  apply andb_true_iff in h1. destruct h1 as [h0 h1]. apply Z.eqb_eq in h0. apply Pos.eqb_eq in h1. rewrite (IHx _ h2), (IHy _ h3). destruct q, q'. cbn in *. congruence.
Qed.
Definition ful_sys (bt bp bm bv : bool) : bool :=
  match ful_factor bt bp bm bv, probes (ful_args bt bp bm bv) f_ful with
  | Some q, Ok (o, t) => qt_same t (ful_tree q) && ful_kind bt bp bm bv o
  | None, Raise ETypeError => true
  | _, _ => false
  end.
Lemma ful_sweep bt bp bm bv : ful_sys bt bp bm bv = true.
Proof. destruct bt, bp, bm, bv; vm_compute; reflexivity. Qed.
(** Arguments that are numbers, or objects in the unit asked for. *)
Lemma either_qmakes_simple b c v x s : either b v x (simple c x s) -> qmakes (pick b (qsimple c 1 s) qN) v x.
Proof. unfold either, pick. destruct b; intro h; [apply simple_qmakes; exact h|subst; apply num_qmakes]. Qed.
Lemma either_qmakes_multi b c v x s : either b v x (multi c x s) -> qmakes (pick b (qmulti c 1 s) qN) v x.
Proof. unfold either, pick. destruct b; intro h; [apply multi_qmakes; exact h|subst; apply num_qmakes]. Qed.
Lemma either_qmakes_constant b v x s : either b v x (constant x s) -> qmakes (pick b (qcon s) qN) v x.
Proof. unfold either, pick. destruct b; intro h; [apply constant_qmakes; exact h|subst; apply num_qmakes]. Qed.
Lemma check_K b x (v : val) : either b v x (simple Temperature x "K") -> check_units v "K" = Ok tt.
Proof. destruct b; cbn [either]; intro h; [vm_compute in h; injection h as <-|subst]; reflexivity. Qed.
Lemma check_P b x (v : val) : either b v x (simple Pressure x "atm") -> check_units v "atm" = Ok tt.
Proof. destruct b; cbn [either]; intro h; [vm_compute in h; injection h as <-|subst]; reflexivity. Qed.
Lemma check_M b x (v : val) : either b v x (multi "MolecularWeight" x "g/mol") -> check_units v "g/mol" = Ok tt.
Proof. destruct b; cbn [either]; intro h; [vm_compute in h; injection h as <-|subst]; vm_compute; reflexivity. Qed.
Lemma check_V b x (v : val) : either b v x (constant x "cm^3/mol") -> check_units v "cm^3/mol" = Ok tt.
Proof. destruct b; cbn [either]; intro h; [vm_compute in h; injection h as <-|subst]; vm_compute; reflexivity. Qed.
Definition ful_make (D : res val) : res wrapped :=
  let* D_AB := D in
  match D_AB with
  | VMulti m => if mcls_eqb (mc m) MMulti then wrap (VNum (mv m / 10000)%R) "cm^2/s" else wrap D_AB "cm^2/s"
  | _ => wrap D_AB "cm^2/s"
  end.
Lemma obj_multi m x : obj (VMulti m) x = VMulti (MO (mc m) x (mtop m) (mbot m)). Proof. reflexivity. Qed.
Lemma obj_unit u x : obj (VUnit u) x = VUnit (UO (uc u) x (un u) (ue u)). Proof. reflexivity. Qed.
Definition f_ma := FDiv (FNum 2) (FAdd (FDiv (FNum 1) (FVar 2)) (FDiv (FNum 1) (FVar 3))).
Definition f_num := FMul (FNum 0.00143) (FPow (FVar 1) (eflt (Q2Qc (7 # 4)))).
Definition f_den := FMul (FMul (FVar 2) (FPow (FVar 0) half_)) (FPow (FAdd (FPow (FVar 5) third_) (FPow (FVar 6) third_)) (eint 2)).
Definition p_ma := Eval vm_compute in shape_of [qN; qP; qN; qN; qN; qN] f_ma.
Definition p_num := Eval vm_compute in shape_of [qN; qN; qP; qN; qN; qN; qN] f_num.
Definition p_den := Eval vm_compute in shape_of [qN; qN; qP; qN; qN; qN; qN] f_den.
Lemma ma_p : probes [qN; qP; qN; qN; qN; qN] f_ma = Ok (fst p_ma, snd p_ma). Proof. vm_compute. reflexivity. Qed.
Lemma num_p : probes [qN; qN; qP; qN; qN; qN; qN] f_num = Ok (fst p_num, snd p_num). Proof. vm_compute. reflexivity. Qed.
Lemma den_p : probes [qN; qN; qP; qN; qN; qN; qN] f_den = Ok (fst p_den, snd p_den). Proof. vm_compute. reflexivity. Qed.
Section Fuller.
Variables (bt bp bm bv : bool) (T P Ma Mb Va Vb : R) (vT vP vMa vMb vVa vVb : val).
Hypotheses (hT : either bt vT T (simple Temperature T "K")) (hP : either bp vP P (simple Pressure P "atm"))
  (hMa : either bm vMa Ma (multi "MolecularWeight" Ma "g/mol")) (hMb : either bm vMb Mb (multi "MolecularWeight" Mb "g/mol"))
  (hVa : either bv vVa Va (constant Va "cm^3/mol")) (hVb : either bv vVb Vb (constant Vb "cm^3/mol"))
  (pT : 0 < T) (pP : 0 < P) (pMa : 0 < Ma) (pMb : 0 < Mb) (pVa : 0 < Va) (pVb : 0 < Vb).
Lemma ful_qmakes : qmakes_all (ful_args bt bp bm bv) [vT; vP; vMa; vMb; vVa; vVb] [T; P; Ma; Mb; Va; Vb].
Proof.
  unfold ful_args, qK, qP, qM, qV. repeat (first [apply qmakes_nil | apply qmakes_cons; [first [apply either_qmakes_simple; assumption|apply either_qmakes_multi; assumption|apply either_qmakes_constant; assumption]|]]).
Qed.
Lemma ful_checks : fullers vT vP vMa vMb vVa vVb = ful_make (run [vT; vP; vMa; vMb; vVa; vVb] f_ful).
Proof.
  unfold fullers. rewrite (check_K _ _ _ hT), (check_P _ _ _ hP), (check_M _ _ _ hMa), (check_M _ _ _ hMb), (check_V _ _ _ hVa), (check_V _ _ _ hVb). cbn [bind]. rewrite ful_eq. reflexivity.
Qed.
Lemma ful_answer q : ful_factor bt bp bm bv = Some q -> Q2R q <> 0 ->
  exists o, run [vT; vP; vMa; vMb; vVa; vVb] f_ful = Ok (obj o (ful_value T P Ma Mb Va Vb / Q2R q)) /\ ful_kind bt bp bm bv o = true.
Proof.
  intros hq hz. pose proof (ful_sweep bt bp bm bv) as h. unfold ful_sys in h. rewrite hq in h. destruct (probes (ful_args bt bp bm bv) f_ful) as [[o t]|e] eqn:hp; [|discriminate].
  apply andb_true_iff in h. destruct h as [h1 h2]. apply qt_same_eq in h1. subst t. exists o. split; [|exact h2]. eapply ful_run; eauto. apply ful_qmakes.
Qed.
Lemma wrap_ok v s w : wrap v s = Ok w -> wval w = v /\ parse_units s = Ok (wtop w, wbot w).
Proof. unfold wrap. destruct (parse_units s) as [[a b]|]; cbn; [|discriminate]. intro h. injection h as <-. split; reflexivity. Qed.
Lemma wrap_cm v : exists w, wrap v "cm^2/s" = Ok w /\ in_cm2s v w.
Proof. destruct (wrap v "cm^2/s") as [w|] eqn:h; [|vm_compute in h; discriminate]. exists w. split; [reflexivity|apply wrap_ok; exact h]. Qed.
Lemma fullers_right : (bm && bv = true \/ bt || bp || bm || bv = false) -> exists w, fullers vT vP vMa vMb vVa vVb = Ok w /\ in_cm2s (VNum (ful_value T P Ma Mb Va Vb)) w.
Proof.
  intro hb. rewrite ful_checks. destruct hb as [hb|hb].
  - assert (hq : ful_factor bt bp bm bv = Some (1 # 10000)%Q) by (unfold ful_factor; rewrite hb; reflexivity).
    assert (hr : Q2R (1 # 10000) = / 10000) by (unfold Q2R; cbn; lra).
    destruct (ful_answer _ hq ltac:(rewrite hr; lra)) as [o [e k]]. rewrite e, hr. cbn [ful_make bind]. clear e.
    destruct o as [x| | |u|m]; cbn [ful_kind] in k; try discriminate.
    + exfalso. destruct bt, bp, bm, bv; discriminate.
    + exfalso. destruct bt, bp, bm, bv; discriminate.
    + apply andb_true_iff in k. destruct k as [k _]. apply andb_true_iff in k. destruct k as [k _]. rewrite obj_multi. unfold ful_make. cbn [bind mc mv]. rewrite k.
      replace (ful_value T P Ma Mb Va Vb / / 10000 / 10000) with (ful_value T P Ma Mb Va Vb) by field. apply wrap_cm.
  - assert (hq : ful_factor bt bp bm bv = Some 1%Q) by (destruct bt, bp, bm, bv; try discriminate; reflexivity).
    destruct (ful_answer _ hq ltac:(rewrite RMicromega.Q2R_1; lra)) as [o [e k]]. rewrite e, RMicromega.Q2R_1. unfold Rdiv at 1. rewrite Rinv_1, Rmult_1_r. clear e.
    destruct o as [x| | |u|m]; cbn [ful_kind] in k; try discriminate.
    + unfold obj. cbn [vmap setv ful_make bind]. apply wrap_cm.
    + exfalso. destruct bt, bp, bm, bv; discriminate.
    + exfalso. rewrite hb in k. rewrite andb_false_r in k. discriminate.
Qed.
(** Some arguments objects, but not both the weights and the volumes. *)
Lemma fullers_wrong : bm && bv = false -> bp || bm || bv = true -> bt || bm || bv = true ->
  exists w, fullers vT vP vMa vMb vVa vVb = Ok w /\ in_cm2s (VNum (ful_value T P Ma Mb Va Vb / 10000)) w.
Proof.
  intros h1 h2 h3. rewrite ful_checks.
  assert (hq : ful_factor bt bp bm bv = Some 1%Q) by (destruct bt, bp, bm, bv; try discriminate; reflexivity).
  destruct (ful_answer _ hq ltac:(rewrite RMicromega.Q2R_1; lra)) as [o [e k]]. rewrite e, RMicromega.Q2R_1. unfold Rdiv at 1. rewrite Rinv_1, Rmult_1_r. clear e.
  destruct o as [x| | |u|m]; cbn [ful_kind] in k; try discriminate.
  - exfalso. destruct bt, bp, bm, bv; discriminate.
  - exfalso. destruct bt, bp, bm, bv; discriminate.
  - apply andb_true_iff in k. destruct k as [k _]. apply andb_true_iff in k. destruct k as [k _]. rewrite obj_multi. unfold ful_make. cbn [bind mc mv]. rewrite k. apply wrap_cm.
Qed.
(** Only the temperature: the coefficient holds a Temperature. *)
Lemma fullers_temperature : bt = true -> bp || bm || bv = false ->
  exists w c e, fullers vT vP vMa vMb vVa vVb = Ok w /\ in_cm2s (VUnit (UO c (ful_value T P Ma Mb Va Vb) "K" e)) w.
Proof.
  intros h1 h2. rewrite ful_checks.
  assert (hq : ful_factor bt bp bm bv = Some 1%Q) by (destruct bt, bp, bm, bv; try discriminate; reflexivity).
  destruct (ful_answer _ hq ltac:(rewrite RMicromega.Q2R_1; lra)) as [o [e k]]. rewrite e, RMicromega.Q2R_1. unfold Rdiv at 1. rewrite Rinv_1, Rmult_1_r. clear e.
  destruct o as [x| | |u|m]; cbn [ful_kind] in k; try discriminate.
  - exfalso. destruct bt, bp, bm, bv; discriminate.
  - destruct u as [c x n e]. cbn [un] in k. assert (hn : n = "K") by (destruct bt, bp, bm, bv; try discriminate; cbn [andb negb orb un] in k; apply andb_true_iff in k; apply String.eqb_eq; apply k). subst n.
    destruct (wrap_cm (VUnit (UO c (ful_value T P Ma Mb Va Vb) "K" e))) as [w [hw hi]]. exists w, c, e. split; assumption.
  - exfalso. destruct bt, bp, bm, bv; try discriminate; rewrite andb_false_r in k; discriminate.
Qed.
(** Only the pressure: a number divided by a Unit. *)
Lemma fullers_pressure : bp = true -> bt || bm || bv = false -> fullers vT vP vMa vMb vVa vVb = Raise ETypeError.
Proof.
  intros h1 h2. rewrite ful_checks. pose proof hT as kT. pose proof hP as kP. pose proof hMa as ka. pose proof hMb as kb. pose proof hVa as kva. pose proof hVb as kvb.
  assert (bt = false) by (destruct bt, bm, bv; try discriminate; reflexivity). assert (bm = false) by (destruct bt, bm, bv; try discriminate; reflexivity). assert (bv = false) by (destruct bt, bm, bv; try discriminate; reflexivity).
  rewrite H in kT. rewrite h1 in kP. rewrite H0 in ka, kb. rewrite H1 in kva, kvb. cbn [either] in *. rewrite kT, ka, kb, kva, kvb.
  pose proof (ful_pos _ _ pMa pMb) as hm. pose proof (inv_sum_nz _ _ pMa pMb) as hz.
  assert (m1 : qmakes_all [qN; qP; qN; qN; qN; qN] [VNum T; vP; VNum Ma; VNum Mb; VNum Va; VNum Vb] [T; P; Ma; Mb; Va; Vb]) by (unfold qN, qP; pmake).
  assert (m2 : qmakes_all [qN; qN; qP; qN; qN; qN; qN] [VNum (2 / (1 / Ma + 1 / Mb)); VNum T; vP; VNum Ma; VNum Mb; VNum Va; VNum Vb] [2 / (1 / Ma + 1 / Mb); T; P; Ma; Mb; Va; Vb]) by (unfold qN, qP; pmake).
  change f_ful with (FLet f_ma (FDiv f_num f_den)).
  change (run ?vs (FLet f_ma ?g)) with (let* v := run vs f_ma in odiv (run (v :: vs) f_num) (run (v :: vs) f_den)).
  rewrite (factor_run _ _ _ f_ma _ _ m1 ma_p); [|unfold f_ma; cbn; repeat split; lra].
  replace (obj (fst p_ma) (pnum [T; P; Ma; Mb; Va; Vb] (snd p_ma) f_ma)) with (VNum (2 / (1 / Ma + 1 / Mb)) : val) by reflexivity. cbn [bind].
  rewrite (factor_run _ _ _ _ _ _ m2 num_p); [|unfold f_num; cbn [pdef tl tr nth snd p_num]; repeat split; apply powr_def; assumption].
  rewrite (factor_run _ _ _ _ _ _ m2 den_p); [|unfold f_den, p_den; cbn [pdef pnum tl tr nth snd]; repeat split; try (apply powr_def; assumption); try apply def2].
  reflexivity.
Qed.
End Fuller.
Lemma fuller_right bt bp bm bv (T P Ma Mb Va Vb : R) vT vP vMa vMb vVa vVb : fuller_call bt bp bm bv T P Ma Mb Va Vb vT vP vMa vMb vVa vVb -> (bm && bv = true \/ bt || bp || bm || bv = false) ->
  exists w, fullers vT vP vMa vMb vVa vVb = Ok w /\ in_cm2s (VNum (ful_value T P Ma Mb Va Vb)) w.
Proof. intros [h1 [h2 [h3 [h4 [h5 [h6 [p1 [p2 [p3 [p4 [p5 p6]]]]]]]]]]]. apply (fullers_right bt bp bm bv T P Ma Mb Va Vb vT vP vMa vMb vVa vVb); assumption. Qed.
Lemma fuller_wrong bt bp bm bv (T P Ma Mb Va Vb : R) vT vP vMa vMb vVa vVb : fuller_call bt bp bm bv T P Ma Mb Va Vb vT vP vMa vMb vVa vVb -> bm && bv = false -> bp || bm || bv = true -> bt || bm || bv = true ->
  exists w, fullers vT vP vMa vMb vVa vVb = Ok w /\ in_cm2s (VNum (ful_value T P Ma Mb Va Vb / 10000)) w.
Proof. intros [h1 [h2 [h3 [h4 [h5 [h6 [p1 [p2 [p3 [p4 [p5 p6]]]]]]]]]]]. apply (fullers_wrong bt bp bm bv T P Ma Mb Va Vb vT vP vMa vMb vVa vVb); assumption. Qed.
Lemma fuller_temperature bt bp bm bv (T P Ma Mb Va Vb : R) vT vP vMa vMb vVa vVb : fuller_call bt bp bm bv T P Ma Mb Va Vb vT vP vMa vMb vVa vVb -> bt = true -> bp || bm || bv = false ->
  exists w c e, fullers vT vP vMa vMb vVa vVb = Ok w /\ in_cm2s (VUnit (UO c (ful_value T P Ma Mb Va Vb) "K" e)) w.
Proof. intros [h1 [h2 [h3 [h4 [h5 [h6 [p1 [p2 [p3 [p4 [p5 p6]]]]]]]]]]]. apply (fullers_temperature bt bp bm bv T P Ma Mb Va Vb vT vP vMa vMb vVa vVb); assumption. Qed.
Lemma fuller_pressure bt bp bm bv (T P Ma Mb Va Vb : R) vT vP vMa vMb vVa vVb : fuller_call bt bp bm bv T P Ma Mb Va Vb vT vP vMa vMb vVa vVb -> bp = true -> bt || bm || bv = false ->
  fullers vT vP vMa vMb vVa vVb = Raise ETypeError.
Proof. intros [h1 [h2 [h3 [h4 [h5 [h6 [p1 [p2 [p3 [p4 [p5 p6]]]]]]]]]]]. apply (fullers_pressure bt bp bm bv T P Ma Mb Va Vb vT vP vMa vMb vVa vVb); assumption. Qed.
(** The same six quantities, the weights as objects or as numbers. *)
Lemma ful_value_pos T P Ma Mb Va Vb : 0 < P -> 0 < Ma -> 0 < Mb -> 0 < ful_value T P Ma Mb Va Vb.
Proof.
  intros h1 h2 h3. unfold ful_value. apply Rdiv_lt_0_compat; [apply Rmult_lt_0_compat; [lra|apply exp_pos]|]. apply ful_den; assumption.
Qed.
Lemma fuller_mixed_ex : exists vT vP vMa vMb vVa vVb w w' x, simple Temperature 300 "K" = Ok vT /\ simple Pressure 1 "atm" = Ok vP /\
  multi "MolecularWeight" 2 "g/mol" = Ok vMa /\ multi "MolecularWeight" 29 "g/mol" = Ok vMb /\ constant 7 "cm^3/mol" = Ok vVa /\ constant 20 "cm^3/mol" = Ok vVb /\
  fullers vT vP vMa vMb vVa vVb = Ok w /\ in_cm2s (VNum x) w /\ fullers vT vP vMa vMb (VNum 7) (VNum 20) = Ok w' /\ in_cm2s (VNum (x / 10000)) w' /\ x <> 0.
Proof.
  destruct (simple Temperature 300 "K") as [vT|] eqn:h1; [|vm_compute in h1; discriminate]. destruct (simple Pressure 1 "atm") as [vP|] eqn:h2; [|vm_compute in h2; discriminate].
  destruct (multi "MolecularWeight" 2 "g/mol") as [vMa|] eqn:h3; [|vm_compute in h3; discriminate]. destruct (multi "MolecularWeight" 29 "g/mol") as [vMb|] eqn:h4; [|vm_compute in h4; discriminate].
  destruct (constant 7 "cm^3/mol") as [vVa|] eqn:h5; [|vm_compute in h5; discriminate]. destruct (constant 20 "cm^3/mol") as [vVb|] eqn:h6; [|vm_compute in h6; discriminate].
  destruct (fuller_right true true true true 300 1 2 29 7 20 vT vP vMa vMb vVa vVb) as [w [e k]]; [unfold fuller_call, either; repeat split; try assumption; lra|left; reflexivity|].
  destruct (fuller_wrong true true true false 300 1 2 29 7 20 vT vP vMa vMb (VNum 7) (VNum 20)) as [w' [e' k']]; [unfold fuller_call, either; repeat split; try assumption; lra|reflexivity..|].
  exists vT, vP, vMa, vMb, vVa, vVb, w, w', (ful_value 300 1 2 29 7 20). repeat (split; [reflexivity || assumption|]). apply Rgt_not_eq. apply ful_value_pos; lra.
Qed.
Lemma fuller_pressure_ex : exists vP, simple Pressure 1 "atm" = Ok vP /\ fullers (VNum 300) vP (VNum 2) (VNum 29) (VNum 7) (VNum 20) = Raise ETypeError.
Proof.
  destruct (simple Pressure 1 "atm") as [vP|] eqn:h2; [|vm_compute in h2; discriminate]. exists vP. split; [reflexivity|].
  apply (fuller_pressure false true false false 300 1 2 29 7 20); [unfold fuller_call, either; repeat split; try assumption; lra|reflexivity..].
Qed.

(** ** Wilke and Chang *)
Definition f_wc := FDiv (FMul (FMul (FNum (7.4 / 10 ^ 8)) (FPow (FMul (FVar 1) (FVar 2)) half_)) (FVar 0)) (FMul (FVar 3) (FPow (FVar 4) (eflt (Q2Qc (6 # 10))))).
Definition wc_tree (q : Q) : qt := QN q (QN 1 (QN 1 QL (QN 1 (QN 1 QL QL) QL)) QL) (QN 1 QL (QN 1 QL QL)).
Lemma wc_run ss vs o q (T th M mu V : R) : qmakes_all ss vs [T; th; M; mu; V] -> probes ss f_wc = Ok (o, wc_tree q) -> 0 < th -> 0 < M -> mu <> 0 -> 0 < V ->
  run vs f_wc = Ok (obj o (wc_value T th M mu V * Q2R q)).
Proof.
  intros hm hp h1 h2 h3 h4. pose proof (factor_run _ _ _ _ _ _ hm hp) as hr. assert (h12 : 0 < th * M) by (apply Rmult_lt_0_compat; assumption).
  assert (q6 : powr V (eflt (Q2Qc (6 # 10))) = Rpower V 0.6). { rewrite powr_float by exact h4. f_equal. }
  assert (hp6 : 0 < Rpower V 0.6) by apply exp_pos.
  assert (em : scale (QN 1 QL QL) (th * M) = th * M) by (rewrite scale_q, RMicromega.Q2R_1; ring).
  assert (hn : pnum [T; th; M; mu; V] (wc_tree q) f_wc = wc_value T th M mu V * Q2R q).
  { unfold f_wc, wc_tree. cbn [pnum tl tr nth]. rewrite em, !scale_q, !RMicromega.Q2R_1, !Rmult_1_r, q6, half_pow by assumption. reflexivity. }
  rewrite hn in hr. apply hr. unfold f_wc, wc_tree. cbn [pdef pnum tl tr nth]. rewrite em, !scale_q, !RMicromega.Q2R_1, !Rmult_1_r, q6.
  repeat split; try (apply powr_def; assumption). apply Rmult_integral_contrapositive. split; lra.
Qed.
Definition wc_make (D : res val) : res wrapped :=
  let* answer := D in
  match answer with
  | VMulti m => if mcls_eqb (mc m) MMulti then wrap (VNum (mv m)) "cm^2/s" else wrap answer "cm^2/s"
  | _ => wrap answer "cm^2/s"
  end.
Lemma wc_eq T th M mu V : wilke_chang T th M mu V = wc_make (run [T; th; M; mu; V] f_wc).
Proof. reflexivity. Qed.
Definition wc_args (bt bm : bool) (v : res qval) : list (res qval) := [pick bt (qsimple Temperature 1 "F") qN; qN; pick bm qM qN; v; qN].
Definition is_multi (o : qval) : bool := match o with VMulti m => mcls_eqb (mc m) MMulti | _ => false end.
Definition wc_sys (ss : list (res qval)) (q : Q) (k : qval -> bool) : bool := match probes ss f_wc with Ok (o, t) => qt_same t (wc_tree q) && k o | Raise _ => false end.
Lemma wc_answer ss vs q k (T th M mu V : R) : qmakes_all ss vs [T; th; M; mu; V] -> wc_sys ss q k = true -> 0 < th -> 0 < M -> mu <> 0 -> 0 < V ->
  exists o, run vs f_wc = Ok (obj o (wc_value T th M mu V * Q2R q)) /\ k o = true.
Proof.
  intros hm hs h1 h2 h3 h4. unfold wc_sys in hs. destruct (probes ss f_wc) as [[o t]|] eqn:hp; [|discriminate]. apply andb_true_iff in hs. destruct hs as [hs hk]. apply qt_same_eq in hs. subst t.
  exists o. split; [eapply wc_run; eauto|exact hk].
Qed.
Lemma wc_cast ss vs q (T th M mu V : R) vT vth vM vmu vV : vs = [vT; vth; vM; vmu; vV] -> qmakes_all ss vs [T; th; M; mu; V] -> wc_sys ss q is_multi = true -> 0 < th -> 0 < M -> mu <> 0 -> 0 < V ->
  exists w, wilke_chang vT vth vM vmu vV = Ok w /\ in_cm2s (VNum (wc_value T th M mu V * Q2R q)) w.
Proof.
  intros -> hm hs h1 h2 h3 h4. rewrite wc_eq. destruct (wc_answer _ _ _ _ _ _ _ _ _ hm hs h1 h2 h3 h4) as [o [e k]]. rewrite e. destruct o as [| | | |m]; try discriminate. cbn [is_multi] in k.
  rewrite obj_multi. unfold wc_make. cbn [bind mc mv]. rewrite k. apply wrap_cm.
Qed.
Lemma wilke_numbers (T th M mu V : R) : 0 < th -> 0 < M -> mu <> 0 -> 0 < V ->
  exists w, wilke_chang (VNum T) (VNum th) (VNum M) (VNum mu) (VNum V) = Ok w /\ in_cm2s (VNum (wc_value T th M mu V)) w.
Proof.
  intros h1 h2 h3 h4. rewrite wc_eq. assert (hm : qmakes_all [qN; qN; qN; qN; qN] [VNum T; VNum th; VNum M; VNum mu; VNum V] [T; th; M; mu; V]) by (unfold qN; pmake).
  destruct (wc_answer _ _ 1%Q (fun o => match o with VNum _ => true | _ => false end) _ _ _ _ _ hm ltac:(vm_compute; reflexivity) h1 h2 h3 h4) as [o [e k]].
  rewrite e, RMicromega.Q2R_1, Rmult_1_r. destruct o; try discriminate. unfold obj. cbn [vmap setv wc_make bind]. apply wrap_cm.
Qed.
Lemma wc_qmakes bt bm s (T th M mu V : R) vT vM vmu : either bt vT T (simple Temperature T "F") -> either bm vM M (multi "MolecularWeight" M "g/mol") -> multi "DynamicViscosity" mu s = Ok vmu ->
  qmakes_all (wc_args bt bm (qmulti "DynamicViscosity" 1 s)) [vT; VNum th; vM; vmu; VNum V] [T; th; M; mu; V].
Proof.
  intros h1 h2 h3. unfold wc_args, qM. apply qmakes_cons; [apply either_qmakes_simple; exact h1|]. apply qmakes_cons; [apply num_qmakes|]. apply qmakes_cons; [apply either_qmakes_multi; exact h2|].
  apply qmakes_cons; [apply multi_qmakes; exact h3|]. apply qmakes_cons; [apply num_qmakes|]. apply qmakes_nil.
Qed.
Lemma wilke_centipoise bt bm (T th M mu V : R) vT vM vmu : either bt vT T (simple Temperature T "F") -> either bm vM M (multi "MolecularWeight" M "g/mol") -> multi "DynamicViscosity" mu "cP" = Ok vmu ->
  0 < th -> 0 < M -> mu <> 0 -> 0 < V ->
  exists w, wilke_chang vT (VNum th) vM vmu (VNum V) = Ok w /\ in_cm2s (VNum (wc_value T th M mu V)) w.
Proof.
  intros h1 h2 h3 p1 p2 p3 p4. replace (wc_value T th M mu V) with (wc_value T th M mu V * Q2R 1) by (rewrite RMicromega.Q2R_1; ring).
  eapply wc_cast; [reflexivity|apply (wc_qmakes bt bm "cP"); eassumption| |assumption..]. destruct bt, bm; vm_compute; reflexivity.
Qed.
(** In g/cm*s: the molecular weight decides whether the number is taken as poise. *)
Lemma wilke_poise bt bm (T th M mu V : R) vT vM vmu : either bt vT T (simple Temperature T "F") -> either bm vM M (multi "MolecularWeight" M "g/mol") -> multi "DynamicViscosity" mu "g/cm*s" = Ok vmu ->
  0 < th -> 0 < M -> mu <> 0 -> 0 < V ->
  exists w, wilke_chang vT (VNum th) vM vmu (VNum V) = Ok w /\ in_cm2s (VNum (if bm then wc_value T th M mu V / 100 else wc_value T th M mu V)) w.
Proof.
  intros h1 h2 h3 p1 p2 p3 p4. assert (hq : Q2R (1 # 100) = / 100) by (unfold Q2R; cbn; lra).
  replace (if bm then wc_value T th M mu V / 100 else wc_value T th M mu V) with (wc_value T th M mu V * Q2R (if bm then 1 # 100 else 1)%Q) by (destruct bm; [rewrite hq; reflexivity|rewrite RMicromega.Q2R_1; ring]).
  eapply wc_cast; [reflexivity|apply (wc_qmakes bt bm "g/cm*s"); eassumption| |assumption..]. destruct bt, bm; vm_compute; reflexivity.
Qed.
Lemma wilke_temperature (T th M mu V : R) vT : simple Temperature T "F" = Ok vT -> 0 < th -> 0 < M -> mu <> 0 -> 0 < V ->
  exists w c e, wilke_chang vT (VNum th) (VNum M) (VNum mu) (VNum V) = Ok w /\ in_cm2s (VUnit (UO c (wc_value T th M mu V) "F" e)) w.
Proof.
  intros h1 p1 p2 p3 p4. rewrite wc_eq. assert (hm : qmakes_all [qsimple Temperature 1 "F"; qN; qN; qN; qN] [vT; VNum th; VNum M; VNum mu; VNum V] [T; th; M; mu; V]) by (unfold qN; pmake).
  destruct (wc_answer _ _ 1%Q (fun o => match o with VUnit u => String.eqb (un u) "F" | _ => false end) _ _ _ _ _ hm ltac:(vm_compute; reflexivity) p1 p2 p3 p4) as [o [e k]].
  rewrite e, RMicromega.Q2R_1, Rmult_1_r. destruct o as [| | |u|]; try discriminate. apply String.eqb_eq in k. rewrite obj_unit, k.
  destruct (wrap_cm (VUnit (UO (uc u) (wc_value T th M mu V) "F" (ue u)))) as [w [hw hi]]. exists w, (uc u), (ue u). split; assumption.
Qed.

Lemma wc_value_pos T th M mu V : 0 < T -> 0 < th -> 0 < M -> 0 < mu -> 0 < wc_value T th M mu V.
Proof.
  intros h1 h2 h3 h4. unfold wc_value. apply Rdiv_lt_0_compat; apply Rmult_lt_0_compat; try assumption; try apply exp_pos. apply Rmult_lt_0_compat; [lra|]. apply sqrt_lt_R0. apply Rmult_lt_0_compat; assumption.
Qed.
(** The same viscosity of 1 g/cm*s, with the solvent's weight as an object or a number. *)
Lemma wilke_poise_ex : exists vM vmu w w' x, multi "MolecularWeight" 18 "g/mol" = Ok vM /\ multi "DynamicViscosity" 1 "g/cm*s" = Ok vmu /\
  wilke_chang (VNum 300) (VNum 2.6) vM vmu (VNum 40) = Ok w /\ in_cm2s (VNum (x / 100)) w /\
  wilke_chang (VNum 300) (VNum 2.6) (VNum 18) vmu (VNum 40) = Ok w' /\ in_cm2s (VNum x) w' /\ x <> 0.
Proof.
  destruct (multi "MolecularWeight" 18 "g/mol") as [vM|] eqn:h3; [|vm_compute in h3; discriminate]. destruct (multi "DynamicViscosity" 1 "g/cm*s") as [vmu|] eqn:h4; [|vm_compute in h4; discriminate].
  destruct (wilke_poise false true 300 2.6 18 1 40 (VNum 300) vM vmu) as [w [e k]]; try assumption; try reflexivity; try lra.
  destruct (wilke_poise false false 300 2.6 18 1 40 (VNum 300) (VNum 18) vmu) as [w' [e' k']]; try assumption; try reflexivity; try lra.
  exists vM, vmu, w, w', (wc_value 300 2.6 18 1 40). repeat (split; [reflexivity || assumption|]). apply Rgt_not_eq, wc_value_pos; lra.
Qed.
Lemma io_value_pos R_ T np nm lp lm : 0 < R_ -> 0 < T -> 0 < np -> 0 < nm -> 0 < lp -> 0 < lm -> 0 < io_value R_ T np nm lp lm.
Proof.
  intros h1 h2 h3 h4 h5 h6. unfold io_value. assert (k : forall a b, 0 < a -> 0 < b -> 0 < 1 / a + 1 / b) by (intros; apply Rplus_lt_0_compat; apply Rdiv_lt_0_compat; lra).
  apply Rdiv_lt_0_compat; apply Rmult_lt_0_compat; auto; [apply Rmult_lt_0_compat; assumption|lra].
Qed.
Lemma ionic_docstring_ex : exists vR vT vp vm r, constant 8.314 "J/mol*K" = Ok vR /\ simple Temperature 298 "K" = Ok vT /\ constant 50 "A/cm^2*V*mol" = Ok vp /\ constant 76 "A/cm^2*V*mol" = Ok vm /\
  ionic_diffusion_coefficient vR vT (VNum 1) (VNum 1) vp vm = Ok r /\ forall x, ~ denotes r x "m^2/s".
Proof.
  destruct (constant 8.314 "J/mol*K") as [vR|] eqn:h1; [|vm_compute in h1; discriminate]. destruct (simple Temperature 298 "K") as [vT|] eqn:h2; [|vm_compute in h2; discriminate].
  destruct (constant 50 "A/cm^2*V*mol") as [vp|] eqn:h3; [|vm_compute in h3; discriminate]. destruct (constant 76 "A/cm^2*V*mol") as [vm|] eqn:h4; [|vm_compute in h4; discriminate].
  destruct (ionic_docstring 8.314 298 1 1 50 76 _ _ _ _ h1 h2 h3 h4) as [r [e k]]; try lra. exists vR, vT, vp, vm, r. repeat (split; [reflexivity || assumption|]). intros x hx.
  assert (z : io_value 8.314 298 1 1 (10000 * 50) (10000 * 76) = 0) by (eapply (unlike_ok "m^-2*s^-1" "m^2/s"); [vm_compute; reflexivity|exact k|exact hx]).
  pose proof (io_value_pos 8.314 298 1 1 (10000 * 50) (10000 * 76)). lra.
Qed.
