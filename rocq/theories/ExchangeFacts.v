(** * ExchangeFacts: phase change, shell side, reactors and evaporation *)
From Coq Require Import String Ascii List ZArith QArith Qcanon Bool Reals Qreals Lia Lra.
From Verif Require Import Py Num UnitsData UnitsStruct Units NumFacts Spec SpecFacts StructFacts
  OpFacts NamesFacts ClosureFacts FactorFacts LawFacts WitnessFacts PropFacts OpPropFacts Solve Formulas Correlations FormulaSpec TransferSpec ExchangeSpec SemFacts SymFacts SweepFacts SimFacts ParamFacts DimlessFacts ProbeFacts DenoteFacts UnlikeFacts PrefixFacts CoefficientFacts GroupFacts PulseFacts DiffusivityFacts ConvSpec ConvCases.
Import ListNotations.
Local Open Scope string_scope.
Local Open Scope list_scope.
Local Open Scope R_scope.

(** ** Condensation *)
Definition f_co := FMul (FNum 0.729) (FPow (FDiv (FMul (FMul (FMul (FPow (FVar 0) (eint 3)) (FPow (FVar 1) (eint 2))) (FVar 2)) (FVar 3)) (FMul (FMul (FMul (FVar 4) (FSub (FVar 5) (FVar 6))) (FVar 7)) (FVar 8))) quarter_).
Definition f_ct := FMul (FMul (FMul (FPow (FVar 0) (eint 3)) (FPow (FVar 1) (eint 2))) (FVar 2)) (FVar 3).
Definition f_cb := FMul (FMul (FMul (FVar 4) (FSub (FVar 5) (FVar 6))) (FVar 7)) (FVar 8).
Definition co_args (uk M l t e th : string) : list (res qval) :=
  [qmulti "ThermalConductivity" 1 uk; qmulti "Density" 1 (M +++ "/" +++ l +++ "^3"); qmulti "Acceleration" 1 (l +++ "/" +++ t +++ "^2"); qmulti "Hvap" 1 (e +++ "/" +++ M);
   Ok (VNum 1%Q); qsimple Temperature 1 th; qsimple Temperature 1 th; qsimple Length 1 l; qmulti "DynamicViscosity" 1 (M +++ "/" +++ l +++ "*" +++ t)].
Definition co_sys (uk r M l t e th : string) : bool :=
  osys (co_args uk M l t e th) f_co (in_unit r) && osys (co_args uk M l t e th) f_ct (fun _ => true) && osys (co_args uk M l t e th) f_cb (fun _ => true).
Lemma co_sweep : forallb (fun M => forallb (fun l => forallb (fun t => forallb (fun e => forallb (fun th =>
   co_sys (e +++ "/" +++ t +++ "*" +++ l +++ "*" +++ th) (e +++ "/" +++ t +++ "*" +++ l +++ "^2*" +++ th) M l t e th) temperatures) energies) times) lengths) masses = true.
Proof. vm_compute. reflexivity. Qed.
Lemma co_watt : forallb (fun M => forallb (fun l => forallb (fun th => co_sys ("W/" +++ l +++ "*" +++ th) ("W/" +++ l +++ "^2*" +++ th) M l "s" "J" th) temperatures) lengths) masses = true.
Proof. vm_compute. reflexivity. Qed.
Lemma quarter_pow x : 0 < x -> powr x quarter_ = Rpower x (1 / 4).
Proof. intro h. unfold quarter_. rewrite powr_float by exact h. reflexivity. Qed.
Lemma condensation M l t e th uk r_ (k rho g h n T2 T1 d mu : R) vk vrho vg vh v2 v1 vd vmu : In M masses -> In l lengths -> In t times -> In e energies -> In th temperatures ->
  (uk = e +++ "/" +++ t +++ "*" +++ l +++ "*" +++ th /\ r_ = e +++ "/" +++ t +++ "*" +++ l +++ "^2*" +++ th \/ (e = "J" /\ t = "s" /\ uk = "W/" +++ l +++ "*" +++ th /\ r_ = "W/" +++ l +++ "^2*" +++ th)) ->
  multi "ThermalConductivity" k uk = Ok vk -> multi "Density" rho (M +++ "/" +++ l +++ "^3") = Ok vrho -> multi "Acceleration" g (l +++ "/" +++ t +++ "^2") = Ok vg ->
  multi "Hvap" h (e +++ "/" +++ M) = Ok vh -> simple Temperature T2 th = Ok v2 -> simple Temperature T1 th = Ok v1 -> simple Length d l = Ok vd ->
  multi "DynamicViscosity" mu (M +++ "/" +++ l +++ "*" +++ t) = Ok vmu ->
  0 < k -> 0 < rho -> 0 < g -> 0 < h -> 0 < n -> T1 < T2 -> 0 < d -> 0 < mu ->
  exists r, condensation_transfer_coefficient vk vrho vg vh (VNum n) v2 v1 vd vmu = Ok r /\ value r = co_value k rho g h n T2 T1 d mu /\ denotes r (co_value k rho g h n T2 T1 d mu) r_.
Proof.
  intros hM hl ht he hth hu h1 h2 h3 h4 h5 h6 h7 h8 pk pr pg ph pn pT pd pm.
  assert (hs : co_sys uk r_ M l t e th = true).
  { destruct hu as [[-> ->]|[-> [-> [-> ->]]]]; [eapply (sweep5 (fun M l t e th => co_sys (e +++ "/" +++ t +++ "*" +++ l +++ "*" +++ th) (e +++ "/" +++ t +++ "*" +++ l +++ "^2*" +++ th) M l t e th)); [apply co_sweep|assumption..]|].
    eapply (sweep3 (fun M l th => co_sys ("W/" +++ l +++ "*" +++ th) ("W/" +++ l +++ "^2*" +++ th) M l "s" "J" th)); [apply co_watt|assumption..]. }
  unfold co_sys in hs. apply andb_true_iff in hs. destruct hs as [hs hs3]. apply andb_true_iff in hs. destruct hs as [hs1 hs2].
  set (vs := [vk; vrho; vg; vh; VNum n; v2; v1; vd; vmu]). set (xs := [k; rho; g; h; n; T2; T1; d; mu]).
  assert (hm : qmakes_all (co_args uk M l t e th) vs xs) by (unfold co_args, vs, xs; pmake).
  assert (pt : 0 < k ^ 3 * rho ^ 2 * g * h).
  { apply Rmult_lt_0_compat; [apply Rmult_lt_0_compat; [apply Rmult_lt_0_compat; apply pow_lt; assumption|assumption]|assumption]. }
  assert (pb : 0 < n * (T2 - T1) * d * mu).
  { apply Rmult_lt_0_compat; [apply Rmult_lt_0_compat; [apply Rmult_lt_0_compat; lra|assumption]|assumption]. }
  pose proof (Rdiv_lt_0_compat _ _ pt pb) as pq.
  assert (hn : num xs f_co = co_value k rho g h n T2 T1 d mu).
  { cbn [num f_co xs nth]. rewrite powr3, powr2, quarter_pow by exact pq. reflexivity. }
  destruct (denotes_run _ _ _ _ _ hm hs1) as [r [er [vr dr]]].
  { cbn [def num f_co xs nth]. rewrite powr3, powr2. repeat split; try apply def3; try apply def2; try lra; try (apply powr_def; exact pq). }
  destruct (osys_sound _ _ _ _ _ hm hs2) as [o2 [e2 _]]; [cbn [def f_ct xs]; repeat split; try apply def3; try apply def2|].
  destruct (osys_sound _ _ _ _ _ hm hs3) as [o3 [e3 _]]; [cbn [def f_cb xs]; repeat split|].
  exists r. rewrite hn in *. split; [|split; assumption]. unfold condensation_transfer_coefficient.
  cbn [run f_ct f_cb f_co vs var nth_error] in e2, e3, er. rewrite e2, e3 in *. cbn [bind]. exact er.
Qed.
(** Sixteen times the pipes, or the temperature difference, halves the coefficient. *)
Lemma co_sixteen k rho g h n T2 T1 d mu : 0 < k -> 0 < rho -> 0 < g -> 0 < h -> 0 < n -> T1 < T2 -> 0 < d -> 0 < mu ->
  co_value k rho g h (16 * n) T2 T1 d mu = co_value k rho g h n T2 T1 d mu / 2.
Proof.
  intros pk pr pg ph pn pT pd pm. unfold co_value.
  assert (pt : 0 < k ^ 3 * rho ^ 2 * g * h).
  { apply Rmult_lt_0_compat; [apply Rmult_lt_0_compat; [apply Rmult_lt_0_compat; apply pow_lt; assumption|assumption]|assumption]. }
  assert (pb : 0 < n * (T2 - T1) * d * mu).
  { apply Rmult_lt_0_compat; [apply Rmult_lt_0_compat; [apply Rmult_lt_0_compat; lra|assumption]|assumption]. }
  replace (k ^ 3 * rho ^ 2 * g * h / (16 * n * (T2 - T1) * d * mu)) with (k ^ 3 * rho ^ 2 * g * h / (n * (T2 - T1) * d * mu) * / 16) by (field; repeat split; lra).
  rewrite <- Rpower_mult_distr; [|apply Rdiv_lt_0_compat; assumption|lra].
  replace (Rpower (/ 16) (1 / 4)) with (/ 2); [field|].
  replace (/ 16) with (Rpower (/ 2) 4). { rewrite Rpower_mult. replace (4 * (1 / 4)) with 1 by lra. rewrite Rpower_1 by lra. reflexivity. }
  replace 4 with (INR 4) by (cbn; lra). rewrite Rpower_pow by lra. cbn. lra.
Qed.

(** ** Boiling *)
Definition f_bo := FMul (FMul (FMul (FNum 0.15) (FVar 0)) (FPow (FVar 1) half_)) (FPow (FMul (FMul (FVar 3) (FVar 4)) (FSub (FVar 2) (FVar 1))) quarter_).
Definition bo_args (e M l t u : string) : list (res qval) :=
  [qmulti "Hvap" 1 (e +++ "/" +++ M); qmulti "Density" 1 (M +++ "/" +++ l +++ "^3"); qmulti "Density" 1 (M +++ "/" +++ l +++ "^3"); qcon u; qmulti "Acceleration" 1 (l +++ "/" +++ t +++ "^2")].
Definition bo_sys M l t e := osys (bo_args e M l t (M +++ "/" +++ t +++ "^2")) f_bo (fun o => in_unit (e +++ "/" +++ t +++ "*" +++ l +++ "^2") o && converts_b "W/m^2" o).
Lemma bo_sweep : forallb (fun M => forallb (fun l => forallb (fun t => forallb (bo_sys M l t) energies) times) lengths) masses = true.
Proof. vm_compute. reflexivity. Qed.
Lemma boiling M l t e (h rv rl st g : R) vh vv vl vs_ vg : In M masses -> In l lengths -> In t times -> In e energies ->
  multi "Hvap" h (e +++ "/" +++ M) = Ok vh -> multi "Density" rv (M +++ "/" +++ l +++ "^3") = Ok vv -> multi "Density" rl (M +++ "/" +++ l +++ "^3") = Ok vl ->
  constant st (M +++ "/" +++ t +++ "^2") = Ok vs_ -> multi "Acceleration" g (l +++ "/" +++ t +++ "^2") = Ok vg -> 0 < rv -> rv < rl -> 0 < st -> 0 < g ->
  exists r, flux_max_boiling tables0 vh vv vl vs_ vg = Ok r /\ value r = bo_value h rv rl st g /\ denotes r (bo_value h rv rl st g) (e +++ "/" +++ t +++ "*" +++ l +++ "^2").
Proof.
  intros hM hl ht he h1 h2 h3 h4 h5 pv plv ps pg. pose proof (sweep4 _ _ _ _ _ _ _ _ _ bo_sweep hM hl ht he) as hs. unfold bo_sys in hs.
  set (vs := [vh; vv; vl; vs_; vg]). set (xs := [h; rv; rl; st; g]).
  assert (hm : qmakes_all (bo_args e M l t (M +++ "/" +++ t +++ "^2")) vs xs) by (unfold bo_args, qcon, vs, xs; pmake).
  assert (pq : 0 < st * g * (rl - rv)) by (apply Rmult_lt_0_compat; [apply Rmult_lt_0_compat; assumption|lra]).
  assert (hn : num xs f_bo = bo_value h rv rl st g) by (cbn [num f_bo xs nth]; rewrite half_pow, quarter_pow by assumption; reflexivity).
  destruct (osys_sound _ _ _ _ _ hm hs) as [o [er [ho [hc _]]]].
  { cbn [def num f_bo xs nth]. repeat split; apply powr_def; assumption. }
  cbn beta in ho. apply andb_true_iff in ho. destruct ho as [ho hv].
  destruct (converts_ok _ _ (num xs f_bo) hv) as [m [pt [pb [em [ep [r [ec _]]]]]]].
  exists (obj o (num xs f_bo)). rewrite hn in *. split; [|split; [apply obj_value; exact hc|apply in_unit_ok; assumption]].
  unfold flux_max_boiling. change (run vs f_bo = Ok (obj o (bo_value h rv rl st g))) in er. cbn [run f_bo vs var nth_error] in er. rewrite er. cbn [bind]. rewrite em. rewrite ec. reflexivity.
Qed.
(** The conversion is thrown away: in other units the result is not in W/m^2. *)
Lemma boiling_cast : exists vh vv vl vs_ vg m, multi "Hvap" 1 "BTU/lb" = Ok vh /\ multi "Density" 1 "lb/ft^3" = Ok vv /\ multi "Density" 2 "lb/ft^3" = Ok vl /\
  constant 1 "lb/s^2" = Ok vs_ /\ multi "Acceleration" 1 "ft/s^2" = Ok vg /\ flux_max_boiling tables0 vh vv vl vs_ vg = Ok (VMulti m) /\ In "BTU" (map bname (mtop m)).
Proof.
  destruct (multi "Hvap" 1 "BTU/lb") as [vh|] eqn:h1; [|vm_compute in h1; discriminate]. destruct (multi "Density" 1 "lb/ft^3") as [vv|] eqn:h2; [|vm_compute in h2; discriminate].
  destruct (multi "Density" 2 "lb/ft^3") as [vl|] eqn:h3; [|vm_compute in h3; discriminate]. destruct (constant 1 "lb/s^2") as [vs_|] eqn:h4; [|vm_compute in h4; discriminate].
  destruct (multi "Acceleration" 1 "ft/s^2") as [vg|] eqn:h5; [|vm_compute in h5; discriminate].
  assert (hm : qmakes_all (bo_args "BTU" "lb" "ft" "s" "lb/s^2") [vh; vv; vl; vs_; vg] [1; 1; 2; 1; 1]) by (unfold bo_args, qcon; pmake).
  assert (hs : osys (bo_args "BTU" "lb" "ft" "s" "lb/s^2") f_bo (fun o => converts_b "W/m^2" o && match o with VMulti m => mem_str "BTU" (map bname (mtop m)) | _ => false end) = true) by (vm_compute; reflexivity).
  destruct (osys_sound _ _ _ _ _ hm hs) as [o [er [ho _]]].
  { cbn [def num f_bo nth]. repeat split; apply powr_def; lra. }
  cbn beta in ho. apply andb_true_iff in ho. destruct ho as [hv hb].
  destruct (converts_ok _ _ (num [1; 1; 2; 1; 1] f_bo) hv) as [m [pt [pb [em [ep [r [ec _]]]]]]].
  exists vh, vv, vl, vs_, vg, m. repeat (split; [reflexivity|]). split.
  - unfold flux_max_boiling. cbn [run f_bo var nth_error] in er. rewrite er. cbn [bind]. rewrite em, ec. reflexivity.
  - destruct o as [| | | |mo]; try discriminate hb. rewrite obj_multi in em. injection em as <-. apply mem_str_In. exact hb.
Qed.
(** A surface tension in N/m is refused. *)
Definition p_bn : qval * qt := Eval vm_compute in shape_of (bo_args "J" "kg" "m" "s" "N/m") f_bo.
Lemma bn_p : probes (bo_args "J" "kg" "m" "s" "N/m") f_bo = Ok (fst p_bn, snd p_bn).
Proof. vm_compute. reflexivity. Qed.
Definition bn (x : R) : multi_obj R := match fst p_bn with VMulti m => MO (mc m) x (mtop m) (mbot m) | _ => MO MMulti x nil nil end.
Lemma bn_convert x : multi_convert_to tables0 (bn x) "W/m^2" = Raise EUnitConversionError.
Proof.
  destruct (parse_units "W/m^2") as [[pt pb]|] eqn:ep; [|vm_compute in ep; discriminate].
  eapply convert_no; [exact ep| | | |].
  - vm_compute in ep. injection ep as <- <-. eapply (side_eval _ _ _ _ _ _ _ _ _ _ 1 1); [reflexivity|reflexivity|reflexivity|reflexivity|reflexivity|intro; floop|intro; floop|reflexivity|reflexivity|reflexivity].
  - eapply (side_eval _ _ _ _ _ _ _ _ _ _ 1 1); [reflexivity|reflexivity|reflexivity|reflexivity|reflexivity|intro; floop|intro; floop|reflexivity|reflexivity|reflexivity].
  - apply known_b; reflexivity.
  - reflexivity.
Qed.
Lemma boiling_newton (h rv rl st g : R) vh vv vl vs_ vg : multi "Hvap" h "J/kg" = Ok vh -> multi "Density" rv "kg/m^3" = Ok vv -> multi "Density" rl "kg/m^3" = Ok vl ->
  constant st "N/m" = Ok vs_ -> multi "Acceleration" g "m/s^2" = Ok vg -> 0 < rv -> rv < rl -> 0 < st -> 0 < g ->
  flux_max_boiling tables0 vh vv vl vs_ vg = Raise EUnitConversionError.
Proof.
  intros h1 h2 h3 h4 h5 pv plv ps pg.
  assert (hm : qmakes_all (bo_args "J" "kg" "m" "s" "N/m") [vh; vv; vl; vs_; vg] [h; rv; rl; st; g]) by (unfold bo_args, qcon; pmake).
  pose proof (factor_run _ _ _ _ _ _ hm bn_p) as hr. cbn [run f_bo var nth_error] in hr. unfold flux_max_boiling. rewrite hr.
  - cbn [bind]. change (obj (fst p_bn) ?x) with (VMulti (bn x)). cbv iota. rewrite bn_convert. reflexivity.
  - assert (pq : 0 < st * g * (rl - rv)) by (apply Rmult_lt_0_compat; [apply Rmult_lt_0_compat; assumption|lra]).
    unfold f_bo, p_bn. pn. repeat split; apply powr_def; assumption.
Qed.
Lemma boiling_newton_ex : exists vh vv vl vs_ vg e, multi "Hvap" 3000 "J/kg" = Ok vh /\ multi "Density" 1 "kg/m^3" = Ok vv /\ multi "Density" 2 "kg/m^3" = Ok vl /\
  constant 52 "N/m" = Ok vs_ /\ multi "Acceleration" 9.81 "m/s^2" = Ok vg /\ flux_max_boiling tables0 vh vv vl vs_ vg = Raise e.
Proof.
  destruct (multi "Hvap" 3000 "J/kg") as [vh|] eqn:h1; [|vm_compute in h1; discriminate]. destruct (multi "Density" 1 "kg/m^3") as [vv|] eqn:h2; [|vm_compute in h2; discriminate].
  destruct (multi "Density" 2 "kg/m^3") as [vl|] eqn:h3; [|vm_compute in h3; discriminate]. destruct (constant 52 "N/m") as [vs_|] eqn:h4; [|vm_compute in h4; discriminate].
  destruct (multi "Acceleration" 9.81 "m/s^2") as [vg|] eqn:h5; [|vm_compute in h5; discriminate].
  exists vh, vv, vl, vs_, vg, EUnitConversionError. repeat (split; [reflexivity|]). eapply boiling_newton; [exact h1|exact h2|exact h3|exact h4|exact h5|lra..].
Qed.

(** ** The shell side of an exchanger *)
Definition f_sb i j k l := FSub (FMul (FVar i) (FDiv (FMul (FNum PI) (FPow (FVar j) (eint 2))) (FNum 4))) (FMul (FVar k) (FDiv (FMul (FNum PI) (FPow (FVar l) (eint 2))) (FNum 4))).
Definition f_sc i j k l := FMul (FMul (FVar i) (FVar j)) (FSub (FNum 1) (FDiv (FVar k) (FVar l))).
Definition is_length (l : string) (o : qval) : bool := match o with VUnit u => ucls_eqb (uc u) Length && String.eqb (un u) l && Qc_eq_bool (ev (ue u)) (qc 1) | _ => false end.
Lemma sb_sweep : forallb (fun l => osys [Ok (VNum 1%Q); qsimple Length 1 l; Ok (VNum 1%Q); qsimple Length 1 l] (f_sb 0 1 2 3) (is_length l)) lengths = true.
Proof. vm_compute. reflexivity. Qed.
Lemma sc_sweep : forallb (fun l => osys [qsimple Length 1 l; qsimple Length 1 l; qsimple Length 1 l; qsimple Length 1 l] (f_sc 0 1 2 3) (is_length l)) lengths = true.
Proof. vm_compute. reflexivity. Qed.
Lemma is_length_ok l o x : is_length l o = true -> is_simple Length x l (obj o x).
Proof.
  destruct o as [| | |u|]; try discriminate. cbn [is_length]. intro h. apply andb_true_iff in h. destruct h as [h h3]. apply andb_true_iff in h. destruct h as [h1 h2].
  apply ucls_eqb_eq in h1. apply String.eqb_eq in h2. apply Qceqb_eq in h3. exists (ue u). rewrite obj_unit, h1, h2. split; [reflexivity|exact h3].
Qed.
(** The areas keep the number but lose the square: they are Lengths. *)
Lemma baffle_area l (fb Ds Nb Do : R) vs vo : In l lengths -> simple Length Ds l = Ok vs -> simple Length Do l = Ok vo ->
  exists r, Sb_calc (VNum fb) vs (VNum Nb) vo = Ok r /\ is_simple Length (fb * (PI * Ds ^ 2 / 4) - Nb * (PI * Do ^ 2 / 4)) l r.
Proof.
  intros hl h1 h2. pose proof (proj1 (forallb_forall _ _) sb_sweep _ hl) as hs. cbn beta in hs.
  assert (hm : qmakes_all [Ok (VNum 1%Q); qsimple Length 1 l; Ok (VNum 1%Q); qsimple Length 1 l] [VNum fb; vs; VNum Nb; vo] [fb; Ds; Nb; Do]) by pmake.
  destruct (osys_sound _ _ _ _ _ hm hs) as [o [e [ho _]]]; [cbn; repeat split; try apply def2; lra|].
  exists (obj o (num [fb; Ds; Nb; Do] (f_sb 0 1 2 3))). split; [exact e|]. replace (fb * (PI * Ds ^ 2 / 4) - Nb * (PI * Do ^ 2 / 4)) with (num [fb; Ds; Nb; Do] (f_sb 0 1 2 3)) by (cbn [num f_sb nth]; rewrite !powr2; reflexivity).
  apply is_length_ok. exact ho.
Qed.
Lemma cross_area l (P Ds Do p : R) vP vs vo vp : In l lengths -> simple Length P l = Ok vP -> simple Length Ds l = Ok vs -> simple Length Do l = Ok vo -> simple Length p l = Ok vp -> p <> 0 ->
  exists r, Sc_calc vP vs vo vp = Ok r /\ is_simple Length (P * Ds * (1 - Do / p)) l r.
Proof.
  intros hl h1 h2 h3 h4 hz. pose proof (proj1 (forallb_forall _ _) sc_sweep _ hl) as hs. cbn beta in hs.
  assert (hm : qmakes_all [qsimple Length 1 l; qsimple Length 1 l; qsimple Length 1 l; qsimple Length 1 l] [vP; vs; vo; vp] [P; Ds; Do; p]) by pmake.
  destruct (osys_sound _ _ _ _ _ hm hs) as [o [e [ho _]]]; [cbn; repeat split; exact hz|].
  exists (obj o (num [P; Ds; Do; p] (f_sc 0 1 2 3))). split; [exact e|]. exact (is_length_ok _ _ _ ho).
Qed.
(** Mass velocity through areas that are areas. *)
Definition f_ge i j k := FPow (FMul (FDiv (FVar i) (FVar j)) (FDiv (FVar i) (FVar k))) half_.
Definition ge_sys (M l t : string) : bool := osys [qcon (M +++ "/" +++ t); qsimple Area 1 (l +++ "^2"); qsimple Area 1 (l +++ "^2")] (f_ge 0 1 2) (in_unit (M +++ "/" +++ t +++ "*" +++ l +++ "^2")).
Lemma ge_sweep : forallb (fun M => forallb (fun l => forallb (ge_sys M l) times) lengths) masses = true.
Proof. vm_compute. reflexivity. Qed.
Lemma mass_velocity M l t (m Sb Sc : R) vm vb vc : In M masses -> In l lengths -> In t times -> constant m (M +++ "/" +++ t) = Ok vm -> simple Area Sb (l +++ "^2") = Ok vb -> simple Area Sc (l +++ "^2") = Ok vc ->
  0 < m -> 0 < Sb -> 0 < Sc -> exists r, Ge_calc vm vb vc = Ok r /\ value r = m / sqrt (Sb * Sc) /\ denotes r (m / sqrt (Sb * Sc)) (M +++ "/" +++ t +++ "*" +++ l +++ "^2").
Proof.
  intros hM hl ht h1 h2 h3 pm pb pc. pose proof (sweep3 _ _ _ _ _ _ _ ge_sweep hM hl ht) as hs. unfold ge_sys in hs.
  assert (hm : qmakes_all [qcon (M +++ "/" +++ t); qsimple Area 1 (l +++ "^2"); qsimple Area 1 (l +++ "^2")] [vm; vb; vc] [m; Sb; Sc]) by (unfold qcon; pmake).
  assert (pq : 0 < m / Sb * (m / Sc)) by (apply Rmult_lt_0_compat; apply Rdiv_lt_0_compat; assumption).
  destruct (denotes_run _ _ _ _ _ hm hs) as [r [e [v d]]].
  { cbn [def num f_ge nth]. repeat split; try lra. apply powr_def. exact pq. }
  assert (hn : num [m; Sb; Sc] (f_ge 0 1 2) = m / sqrt (Sb * Sc)).
  { cbn [num f_ge nth]. rewrite half_pow by exact pq. pose proof (Rmult_lt_0_compat _ _ pb pc) as pbc. pose proof (sqrt_lt_R0 _ pbc) as ps.
    replace (m / Sb * (m / Sc)) with ((m / sqrt (Sb * Sc)) * (m / sqrt (Sb * Sc))).
    - apply sqrt_square. apply Rlt_le, Rdiv_lt_0_compat; assumption.
    - replace (m / sqrt (Sb * Sc) * (m / sqrt (Sb * Sc))) with (m * m / (sqrt (Sb * Sc) * sqrt (Sb * Sc))) by (field; lra). rewrite sqrt_sqrt by lra. field. split; lra. }
  rewrite hn in *. exists r. split; [|split; assumption]. unfold Ge_calc.
  assert (hs1 : osys [qcon (M +++ "/" +++ t); qsimple Area 1 (l +++ "^2"); qsimple Area 1 (l +++ "^2")] (FDiv (FVar 0) (FVar 1)) (fun _ => true) = true).
  { apply (sweep3 (fun M l t => osys [qcon (M +++ "/" +++ t); qsimple Area 1 (l +++ "^2"); qsimple Area 1 (l +++ "^2")] (FDiv (FVar 0) (FVar 1)) (fun _ => true)) masses lengths times); [vm_compute; reflexivity|assumption..]. }
  assert (hs2 : osys [qcon (M +++ "/" +++ t); qsimple Area 1 (l +++ "^2"); qsimple Area 1 (l +++ "^2")] (FDiv (FVar 0) (FVar 2)) (fun _ => true) = true).
  { apply (sweep3 (fun M l t => osys [qcon (M +++ "/" +++ t); qsimple Area 1 (l +++ "^2"); qsimple Area 1 (l +++ "^2")] (FDiv (FVar 0) (FVar 2)) (fun _ => true)) masses lengths times); [vm_compute; reflexivity|assumption..]. }
  destruct (osys_sound _ _ _ _ _ hm hs1) as [o1 [e1 _]]; [cbn; repeat split; lra|]. destruct (osys_sound _ _ _ _ _ hm hs2) as [o2 [e2 _]]; [cbn; repeat split; lra|].
  cbn [run f_ge var nth_error] in e, e1, e2. rewrite e1, e2 in *. cbn [bind]. exact e.
Qed.
(** The coefficient from a mass velocity. *)
Definition f_hs Do Ge mu Pr k (psi : fx) := FLet (FMul (FMul (FMul (FNum 0.2) (FPow (FDiv (FMul (FVar Do) (FVar Ge)) (FVar mu)) (eflt (Q2Qc (3 # 5))))) (FPow (FVar Pr) (eflt (Q2Qc (33 # 100))))) psi) (FDiv (FMul (FVar 0) (FVar (S k))) (FVar (S Do))).
Definition hs_args (M l t p th : string) : list (res qval) :=
  [qsimple Length 1 l; qcon (M +++ "/" +++ t +++ "*" +++ l +++ "^2"); qmulti "DynamicViscosity" 1 (M +++ "/" +++ l +++ "*" +++ t); Ok (VNum 1%Q); qmulti "ThermalConductivity" 1 (p +++ l +++ "*" +++ th); Ok (VNum 1%Q)].
Definition hs_sys M l t p th := osys (hs_args M l t p th) (f_hs 0 1 2 3 4 (FVar 5)) (in_unit (p +++ l +++ "^2*" +++ th)).
Lemma hs_sweep : forallb (fun M => forallb (fun l => forallb (fun t => forallb (fun p => forallb (hs_sys M l t p) temperatures) powers) times) lengths) masses = true.
Proof. vm_compute. reflexivity. Qed.
Lemma p35 x : 0 < x -> powr x (eflt (Q2Qc (3 # 5))) = Rpower x 0.6.
Proof. intro h. rewrite powr_float by exact h. f_equal. unfold Q2R; cbn; lra. Qed.
Lemma p33 x : 0 < x -> powr x (eflt (Q2Qc (33 # 100))) = Rpower x 0.33.
Proof. intro h. rewrite powr_float by exact h. reflexivity. Qed.
Lemma shell_coefficient M l t p th (Do Ge mu Pr k psi : R) vo vg vmu vk : In M masses -> In l lengths -> In t times -> In p powers -> In th temperatures ->
  simple Length Do l = Ok vo -> constant Ge (M +++ "/" +++ t +++ "*" +++ l +++ "^2") = Ok vg -> multi "DynamicViscosity" mu (M +++ "/" +++ l +++ "*" +++ t) = Ok vmu ->
  multi "ThermalConductivity" k (p +++ l +++ "*" +++ th) = Ok vk -> 0 < Do -> 0 < Ge -> 0 < mu -> 0 < Pr ->
  exists r, htc_shell vo vg vmu (VNum Pr) vk (VNum psi) = Ok r /\ value r = hs_value Do Ge mu Pr k psi /\ denotes r (hs_value Do Ge mu Pr k psi) (p +++ l +++ "^2*" +++ th).
Proof.
  intros hM hl ht hp hth h1 h2 h3 h4 pd pg pm pP. pose proof (sweep5 _ _ _ _ _ _ _ _ _ _ _ hs_sweep hM hl ht hp hth) as hs. unfold hs_sys in hs.
  assert (hm : qmakes_all (hs_args M l t p th) [vo; vg; vmu; VNum Pr; vk; VNum psi] [Do; Ge; mu; Pr; k; psi]) by (unfold hs_args, qcon; pmake).
  assert (pq : 0 < Do * Ge / mu) by (apply Rdiv_lt_0_compat; [apply Rmult_lt_0_compat|]; assumption).
  destruct (denotes_run _ _ _ _ _ hm hs) as [r [e [v d]]].
  { cbn [def num f_hs nth]. repeat split; try lra; apply powr_def; assumption. }
  assert (hn : num [Do; Ge; mu; Pr; k; psi] (f_hs 0 1 2 3 4 (FVar 5)) = hs_value Do Ge mu Pr k psi) by (cbn [num f_hs nth]; rewrite p35, p33 by assumption; reflexivity).
  rewrite hn in *. exists r. split; [exact e|split; assumption].
Qed.
(** ** The whole calculation: arguments fb Ds Do Nb P p m mu cp k *)
Definition f_gl i j k := FLet (FDiv (FVar i) (FVar j)) (FLet (FDiv (FVar (S i)) (FVar (S k))) (FPow (FMul (FVar 1) (FVar 0)) half_)).
Definition f_full := FLet (f_sb 0 1 3 2) (FLet (f_sc 5 2 3 6) (FLet (f_gl 8 1 0) (FLet (FDiv (FMul (FVar 5) (FVar 0)) (FVar 10)) (FLet (FDiv (FMul (FVar 11) (FVar 12)) (FVar 13)) (f_hs 7 2 12 0 14 (FNum 1)))))).
Lemma full_eq fb Ds Do Nb P p m mu cp k : shell_htc_full fb Ds Do Nb P p m mu cp k = run [fb; Ds; Do; Nb; P; p; m; mu; cp; k] f_full.
Proof. reflexivity. Qed.
Definition full_args (M l t e th : string) : list (res qval) :=
  [Ok (VNum 1%Q); qsimple Length 1 l; qsimple Length 1 l; Ok (VNum 1%Q); qsimple Length 1 l; qsimple Length 1 l; qcon (M +++ "/" +++ t);
   qmulti "DynamicViscosity" 1 (M +++ "/" +++ l +++ "*" +++ t); qmulti "HeatCapacity" 1 (e +++ "/" +++ M +++ "*" +++ th); qmulti "ThermalConductivity" 1 (e +++ "/" +++ t +++ "*" +++ l +++ "*" +++ th)].
Definition full_sys M l t e th := osys (full_args M l t e th) f_full (in_unit (e +++ "/" +++ t +++ "*" +++ l +++ "*" +++ th)).
Lemma full_sweep : forallb (fun M => forallb (fun l => forallb (fun t => forallb (fun e => forallb (full_sys M l t e) temperatures) energies) times) lengths) masses = true.
Proof. vm_compute. reflexivity. Qed.
(** The number of W/m^2*K, in the unit of W/m*K. *)
Lemma shell_full M l t e th (fb Ds Do Nb P p m mu cp k : R) vDs vDo vP vp vm vmu vcp vk : In M masses -> In l lengths -> In t times -> In e energies -> In th temperatures ->
  simple Length Ds l = Ok vDs -> simple Length Do l = Ok vDo -> simple Length P l = Ok vP -> simple Length p l = Ok vp -> constant m (M +++ "/" +++ t) = Ok vm ->
  multi "DynamicViscosity" mu (M +++ "/" +++ l +++ "*" +++ t) = Ok vmu -> multi "HeatCapacity" cp (e +++ "/" +++ M +++ "*" +++ th) = Ok vcp ->
  multi "ThermalConductivity" k (e +++ "/" +++ t +++ "*" +++ l +++ "*" +++ th) = Ok vk ->
  let Sb := fb * (PI * Ds ^ 2 / 4) - Nb * (PI * Do ^ 2 / 4) in let Sc := P * Ds * (1 - Do / p) in
  0 < Sb -> 0 < Sc -> p <> 0 -> 0 < Do -> 0 < m -> 0 < mu -> 0 < cp -> 0 < k ->
  exists r, shell_htc_full (VNum fb) vDs vDo (VNum Nb) vP vp vm vmu vcp vk = Ok r /\ value r = hs_value Do (m / sqrt (Sb * Sc)) mu (mu * cp / k) k 1 /\
    denotes r (hs_value Do (m / sqrt (Sb * Sc)) mu (mu * cp / k) k 1) (e +++ "/" +++ t +++ "*" +++ l +++ "*" +++ th).
Proof.
  intros hM hl ht he hth h1 h2 h3 h4 h5 h6 h7 h8 Sb Sc pb pc pp pd pm pmu pcp pk. pose proof (sweep5 _ _ _ _ _ _ _ _ _ _ _ full_sweep hM hl ht he hth) as hs. unfold full_sys in hs.
  set (vs := [VNum fb; vDs; vDo; VNum Nb; vP; vp; vm; vmu; vcp; vk]). set (xs := [fb; Ds; Do; Nb; P; p; m; mu; cp; k]).
  assert (hm : qmakes_all (full_args M l t e th) vs xs) by (unfold full_args, qcon, vs, xs; pmake).
  assert (esb : num xs (f_sb 0 1 3 2) = Sb) by (cbn [num f_sb xs nth]; rewrite !powr2; reflexivity).
  assert (pq : 0 < m / Sb * (m / Sc)) by (apply Rmult_lt_0_compat; apply Rdiv_lt_0_compat; assumption).
  pose proof (Rmult_lt_0_compat _ _ pb pc) as pbc. pose proof (sqrt_lt_R0 _ pbc) as ps.
  assert (ege : powr (m / Sb * (m / Sc)) half_ = m / sqrt (Sb * Sc)).
  { rewrite half_pow by exact pq. replace (m / Sb * (m / Sc)) with ((m / sqrt (Sb * Sc)) * (m / sqrt (Sb * Sc))).
    - apply sqrt_square. apply Rlt_le, Rdiv_lt_0_compat; assumption.
    - replace (m / sqrt (Sb * Sc) * (m / sqrt (Sb * Sc))) with (m * m / (sqrt (Sb * Sc) * sqrt (Sb * Sc))) by (field; lra). rewrite sqrt_sqrt by lra. field. split; lra. }
  assert (pge : 0 < m / sqrt (Sb * Sc)) by (apply Rdiv_lt_0_compat; assumption).
  assert (pre : 0 < Do * (m / sqrt (Sb * Sc)) / mu) by (apply Rdiv_lt_0_compat; [apply Rmult_lt_0_compat|]; assumption).
  assert (ppr : 0 < mu * cp / k) by (apply Rdiv_lt_0_compat; [apply Rmult_lt_0_compat|]; assumption).
  assert (hn : num xs f_full = hs_value Do (m / sqrt (Sb * Sc)) mu (mu * cp / k) k 1).
  { unfold f_full. cbn [num]. rewrite esb. cbn [num f_sc f_gl f_hs xs nth]. fold Sc. rewrite ege, p35, p33 by assumption. reflexivity. }
  destruct (denotes_run _ _ _ _ _ hm hs) as [r [er [vr dr]]].
  { unfold f_full. cbn [def num]. rewrite esb. cbn [def num f_sb f_sc f_gl f_hs xs nth]. fold Sc. rewrite ege. repeat split; try apply def2; try lra; try (apply powr_def; assumption). }
  rewrite hn in *. exists r. rewrite full_eq. split; [exact er|split; assumption].
Qed.
Lemma hs_value_pos Do Ge mu Pr k psi : 0 < Do -> 0 < k -> 0 < psi -> 0 < hs_value Do Ge mu Pr k psi.
Proof. intros h1 h2 h3. unfold hs_value. apply Rdiv_lt_0_compat; [|exact h1]. apply Rmult_lt_0_compat; [|exact h2]. apply Rmult_lt_0_compat; [|exact h3]. apply Rmult_lt_0_compat; [|apply exp_pos]. apply Rmult_lt_0_compat; [lra|apply exp_pos]. Qed.
(** The result is not a heat transfer coefficient. *)
Lemma shell_full_ex : exists vDs vDo vP vp vm vmu vcp vk r, simple Length 1 "m" = Ok vDs /\ simple Length 0.01 "m" = Ok vDo /\ simple Length 0.3 "m" = Ok vP /\ simple Length 0.02 "m" = Ok vp /\
  constant 5 "kg/s" = Ok vm /\ multi "DynamicViscosity" 0.001 "kg/m*s" = Ok vmu /\ multi "HeatCapacity" 4000 "J/kg*K" = Ok vcp /\ multi "ThermalConductivity" 0.6 "J/s*m*K" = Ok vk /\
  shell_htc_full (VNum 1) vDs vDo (VNum 10) vP vp vm vmu vcp vk = Ok r /\ forall x, ~ denotes r x "J/s*m^2*K".
Proof.
  destruct (simple Length 1 "m") as [vDs|] eqn:h1; [|vm_compute in h1; discriminate]. destruct (simple Length 0.01 "m") as [vDo|] eqn:h2; [|vm_compute in h2; discriminate].
  destruct (simple Length 0.3 "m") as [vP|] eqn:h3; [|vm_compute in h3; discriminate]. destruct (simple Length 0.02 "m") as [vp|] eqn:h4; [|vm_compute in h4; discriminate].
  destruct (constant 5 "kg/s") as [vm|] eqn:h5; [|vm_compute in h5; discriminate]. destruct (multi "DynamicViscosity" 0.001 "kg/m*s") as [vmu|] eqn:h6; [|vm_compute in h6; discriminate].
  destruct (multi "HeatCapacity" 4000 "J/kg*K") as [vcp|] eqn:h7; [|vm_compute in h7; discriminate]. destruct (multi "ThermalConductivity" 0.6 "J/s*m*K") as [vk|] eqn:h8; [|vm_compute in h8; discriminate].
  pose proof PI_RGT_0 as hpi.
  destruct (shell_full "kg" "m" "s" "J" "K" 1 1 0.01 10 0.3 0.02 5 0.001 4000 0.6 vDs vDo vP vp vm vmu vcp vk) as [r [e [_ k]]]; try assumption; try (left; reflexivity); try lra.
  exists vDs, vDo, vP, vp, vm, vmu, vcp, vk, r. repeat (split; [reflexivity || assumption|]). intros x hx.
  match type of k with denotes _ ?y _ => assert (z : y = 0) by (eapply (unlike_ok "J/s*m*K" "J/s*m^2*K"); [vm_compute; reflexivity|exact k|exact hx]) end.
  revert z. apply Rgt_not_eq. apply hs_value_pos; lra.
Qed.
Lemma baffle_area_ex : exists vs vo r, simple Length 1 "m" = Ok vs /\ simple Length 0.01 "m" = Ok vo /\ Sb_calc (VNum 0.2) vs (VNum 10) vo = Ok r /\ forall x, ~ denotes r x "m^2".
Proof.
  destruct (simple Length 1 "m") as [vs|] eqn:h1; [|vm_compute in h1; discriminate]. destruct (simple Length 0.01 "m") as [vo|] eqn:h2; [|vm_compute in h2; discriminate].
  destruct (baffle_area "m" 0.2 1 10 0.01 vs vo) as [r [e [x [hx he]]]]; [left; reflexivity|assumption|assumption|]. exists vs, vo, r. repeat (split; [reflexivity || assumption|]).
  set (A := 0.2 * (PI * 1 ^ 2 / 4) - 10 * (PI * 0.01 ^ 2 / 4)) in *.
  assert (k : denotes r A "m").
  { subst r. destruct (mk_multi MMulti 1%Q "m") as [m|] eqn:em; [|vm_compute in em; discriminate]. exists (obj (VMulti m) A). split; [apply constant_obj; exact em|]. intros w hw. vm_compute in em. injection em as <-. unfold obj. cbn [vmap setv mmap mc mv mtop mbot qty]. rewrite msize_lin. cbn [StructFacts.lin bname bexp uv un ue]. do 2 f_equal. unfold Rpower. f_equal. rewrite he. cbn [ev]. unfold QcR, Q2R. cbn. lra. }
  intros y hy. assert (z : A = 0) by (eapply (unlike_ok "m" "m^2"); [vm_compute; reflexivity|exact k|exact hy]). pose proof PI_RGT_0. unfold A in z. lra.
Qed.
(** ** Effectiveness factors *)
Lemma z_sweep : forallb (fun th => osys [qsimple Temperature 1 th; qsimple Temperature 1 th; qsimple Temperature 1 th; qsimple Temperature 1 th] (FDiv (FSub (FVar 0) (FVar 1)) (FSub (FVar 3) (FVar 2))) is_number) temperatures = true.
Proof. vm_compute. reflexivity. Qed.
Lemma nh_sweep : forallb (fun th => osys [qsimple Temperature 1 th; qsimple Temperature 1 th; qsimple Temperature 1 th] (FDiv (FSub (FVar 2) (FVar 1)) (FSub (FVar 0) (FVar 1))) is_number) temperatures = true.
Proof. vm_compute. reflexivity. Qed.
Lemma z_number th (h0 h1 c0 c1 : R) v0 v1 w0 w1 : In th temperatures -> simple Temperature h0 th = Ok v0 -> simple Temperature h1 th = Ok v1 -> simple Temperature c0 th = Ok w0 -> simple Temperature c1 th = Ok w1 -> c1 <> c0 ->
  z_factor v0 v1 w0 w1 = Ok (VNum ((h0 - h1) / (c1 - c0))).
Proof.
  intros ht e0 e1 e2 e3 hz. pose proof (proj1 (forallb_forall _ _) z_sweep _ ht) as hs. cbn beta in hs.
  match type of hs with osys ?q _ _ = _ => assert (hm : qmakes_all q [v0; v1; w0; w1] [h0; h1; c0; c1]) by pmake end.
  apply (number_run _ _ _ _ hm hs). cbn. repeat split. lra.
Qed.
Lemma nh_number th (h0 c0 c1 : R) v0 w0 w1 : In th temperatures -> simple Temperature h0 th = Ok v0 -> simple Temperature c0 th = Ok w0 -> simple Temperature c1 th = Ok w1 -> h0 <> c0 ->
  nh_factor v0 w0 w1 = Ok (VNum ((c1 - c0) / (h0 - c0))).
Proof.
  intros ht e0 e2 e3 hz. pose proof (proj1 (forallb_forall _ _) nh_sweep _ ht) as hs. cbn beta in hs.
  match type of hs with osys ?q _ _ = _ => assert (hm : qmakes_all q [v0; w0; w1] [h0; c0; c1]) by pmake end.
  apply (number_run _ _ _ _ hm hs). cbn. repeat split. lra.
Qed.
