(** * Reactor volumes, equivalent diameters and evaporation: proofs *)
From Coq Require Import String Ascii List ZArith QArith Qcanon Bool Reals Qreals Lia Lra.
From Verif Require Import Py Num UnitsData UnitsStruct Units NumFacts Spec SpecFacts StructFacts
  OpFacts NamesFacts ClosureFacts FactorFacts LawFacts WitnessFacts PropFacts OpPropFacts Solve Formulas Correlations FormulaSpec TransferSpec ExchangeSpec SemFacts SymFacts SweepFacts SimFacts ParamFacts DimlessFacts ProbeFacts DenoteFacts PrefixFacts CoefficientFacts GroupFacts PulseFacts DiffusivityFacts ConvSpec ConvCases.
Import ListNotations.
Local Open Scope string_scope.
Local Open Scope list_scope.
Local Open Scope R_scope.

(** ** The volume of a stirred tank *)
Definition f_cstr := FDiv (FSub (FVar 0) (FVar 1)) (FNeg (FVar 2)).
Definition cstr_args (n t v : string) : list (res qval) := [qmulti "MolarFlowRate" 1 (n +++ "/" +++ t); qmulti "MolarFlowRate" 1 (n +++ "/" +++ t); qmulti "ReactionRate" 1 (n +++ "/" +++ v +++ "*" +++ t)].
Lemma cstr_sweep : forallb (fun n => forallb (fun t => forallb (fun v => osys (cstr_args n t v) f_cstr (in_unit v)) ["L"; "m^3"; "ft^3"]) times) substances = true.
Proof. vm_compute. reflexivity. Qed.
Lemma cstr n t v (F0 F1 r : R) v0 v1 vr : In n substances -> In t times -> In v ["L"; "m^3"; "ft^3"] ->
  multi "MolarFlowRate" F0 (n +++ "/" +++ t) = Ok v0 -> multi "MolarFlowRate" F1 (n +++ "/" +++ t) = Ok v1 -> multi "ReactionRate" r (n +++ "/" +++ v +++ "*" +++ t) = Ok vr -> r <> 0 ->
  exists o, cstr_volume v0 v1 vr = Ok o /\ value o = (F0 - F1) / - r /\ denotes o ((F0 - F1) / - r) v.
Proof.
  intros hn ht hv e0 e1 e2 hr. pose proof (sweep3 _ _ _ _ _ _ _ cstr_sweep hn ht hv) as hs.
  assert (hm : qmakes_all (cstr_args n t v) [v0; v1; vr] [F0; F1; r]) by (unfold cstr_args; pmake).
  apply (denotes_run _ _ _ _ _ hm hs). cbn. repeat split. lra.
Qed.
(** ** Equivalent diameter *)
Lemma eqd_sweep : forallb (fun l => osys [qsimple Area 1 (l +++ "^2"); qsimple Length 1 l] (FMul (FNum 4) (FDiv (FVar 0) (FVar 1))) (in_unit l)) lengths = true.
Proof. vm_compute. reflexivity. Qed.
Lemma equivalent l (A P : R) vA vP : In l lengths -> simple Area A (l +++ "^2") = Ok vA -> simple Length P l = Ok vP -> P <> 0 ->
  exists o, equivalent_diameter vA vP = Ok o /\ value o = 4 * (A / P) /\ denotes o (4 * (A / P)) l.
Proof.
  intros hl e0 e1 hp. pose proof (proj1 (forallb_forall _ _) eqd_sweep _ hl) as hs. cbn beta in hs.
  match type of hs with osys ?q _ _ = _ => assert (hm : qmakes_all q [vA; vP] [A; P]) by pmake end.
  apply (denotes_run _ _ _ _ _ hm hs). cbn. repeat split. exact hp.
Qed.
(** ** Evaporation *)
Definition f_ks := FMul (FVar 0) (FPow (FDiv (FVar 1) (FVar 2)) third_).
Definition ks_args := [qmulti "MassTransferCoefficient" 1 "cm/s"; qmulti "MolecularWeight" 1 "g/mol"; qmulti "MolecularWeight" 1 "g/mol"].
Lemma ks_ok : osys ks_args f_ks (in_unit "cm/s") = true. Proof. vm_compute. reflexivity. Qed.
Lemma K_standard (M : R) vM : multi "MolecularWeight" M "g/mol" = Ok vM -> 0 < M ->
  exists o, K_from_standard vM = Ok o /\ value o = 0.83 * Rpower (18 / M) (1 / 3) /\ denotes o (0.83 * Rpower (18 / M) (1 / 3)) "cm/s".
Proof.
  intros eM pM.
  assert (hc : exists c, multi "MassTransferCoefficient" (0.83 : R) "cm/s" = Ok c) by (eexists; vm_compute; reflexivity). destruct hc as [c ec].
  assert (hw : exists c, multi "MolecularWeight" (18 : R) "g/mol" = Ok c) by (eexists; vm_compute; reflexivity). destruct hw as [w ew].
  assert (hm : qmakes_all ks_args [c; w; vM] [0.83; 18; M]) by (unfold ks_args; pmake).
  assert (e : K_from_standard vM = run [c; w; vM] f_ks).
  { unfold K_from_standard. unfold multi in ec, ew. rewrite ec, ew. reflexivity. }
  assert (p : 0 < 18 / M) by (apply Rdiv_lt_0_compat; lra).
  assert (hn : num [0.83; 18; M] f_ks = 0.83 * Rpower (18 / M) (1 / 3)) by (cbn [num f_ks nth]; unfold third_; rewrite powr_float, q3 by exact p; reflexivity).
  destruct (denotes_run _ _ _ _ _ hm ks_ok) as [r [er [vr dr]]].
  { cbn [def num f_ks nth]. repeat split; try lra. apply powr_def. exact p. }
  rewrite hn in *. exists r. rewrite e. split; [exact er|split; assumption].
Qed.

Definition f_ev := FLet f_ks (FDiv (FMul (FMul (FMul (FVar 3) (FVar 0)) (FVar 4)) (FVar 5)) (FMul (FVar 6) (FVar 7))).
Definition ev_args := ks_args ++ [qsimple Area 1 "m^2"; qsimple Pressure 1 "Pa"; qcon "m^3*Pa/mol*K"; qsimple Temperature 1 "K"].
Definition p_ev : qval * qt := Eval vm_compute in shape_of ev_args f_ev.
Lemma ev_p : probes ev_args f_ev = Ok (fst p_ev, snd p_ev). Proof. vm_compute. reflexivity. Qed.
Lemma ev_unit : in_unit "g/s" (fst p_ev) = true. Proof. vm_compute. reflexivity. Qed.
(** As in the docstring: K from K_from_standard, R from get_gas_constant. *)
Lemma evaporation (M A P T : R) vM vA vP vT : multi "MolecularWeight" M "g/mol" = Ok vM -> simple Area A "m^2" = Ok vA -> simple Pressure P "Pa" = Ok vP -> simple Temperature T "K" = Ok vT ->
  0 < M -> T <> 0 ->
  exists o, (let* K := K_from_standard vM in let* Rg := get_gas_constant "K" "m^3" "Pa" false in Qm_evaporation vM K vA vP Rg vT) = Ok o /\
    value o = M * (0.83 * Rpower (18 / M) (1 / 3) / 100) * A * P / (8.314 * T) /\
    denotes o (M * (0.83 * Rpower (18 / M) (1 / 3) / 100) * A * P / (8.314 * T)) "g/s".
Proof.
  intros eM eA eP eT pM hT.
  assert (hc : exists c, multi "MassTransferCoefficient" (0.83 : R) "cm/s" = Ok c) by (eexists; vm_compute; reflexivity). destruct hc as [c ec].
  assert (hw : exists c, multi "MolecularWeight" (18 : R) "g/mol" = Ok c) by (eexists; vm_compute; reflexivity). destruct hw as [w ew].
  assert (hg : exists c, constant (8.314 : R) "m^3*Pa/mol*K" = Ok c) by (eexists; vm_compute; reflexivity). destruct hg as [g eg].
  set (vs := [c; w; vM; vA; vP; g; vT]). set (xs := [0.83; 18; M; A; P; 8.314; T]).
  assert (hm : qmakes_all ev_args vs xs) by (unfold ev_args, ks_args, qcon, vs, xs; pmake).
  assert (e : (let* K := K_from_standard vM in let* Rg := get_gas_constant "K" "m^3" "Pa" false in Qm_evaporation vM K vA vP Rg vT) = run vs f_ev).
  { unfold K_from_standard, get_gas_constant. unfold multi in ec, ew. rewrite ec, ew. cbn [String.eqb Ascii.eqb Bool.eqb andb]. rewrite eg. reflexivity. }
  assert (p : 0 < 18 / M) by (apply Rdiv_lt_0_compat; lra).
  pose proof (factor_run _ _ _ _ _ _ hm ev_p) as hr.
  assert (hn : pnum xs (snd p_ev) f_ev = M * (0.83 * Rpower (18 / M) (1 / 3) / 100) * A * P / (8.314 * T)).
  { unfold f_ev, f_ks, p_ev, xs. pn. unfold third_. rewrite powr_float, q3 by exact p. replace (Q2R 0.01) with (/ 100) by (unfold Q2R; cbn; lra). field. split; [exact hT|lra]. }
  rewrite hn in hr. eexists. rewrite e. split; [apply hr|split].
  - unfold f_ev, f_ks, p_ev, xs. pn. repeat split; try lra; try (apply powr_def; exact p); try (apply Rmult_integral_contrapositive; split; [lra|exact hT]).
  - reflexivity.
  - apply in_unit_ok; [reflexivity|exact ev_unit].
Qed.
