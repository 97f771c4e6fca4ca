(** * PulseFacts: pulses, radiation, diffusion coefficients, phase changes, reactors *)
From Coq Require Import String Ascii List ZArith QArith Qcanon Bool Reals Qreals Lia Lra.
From Verif Require Import Py Num UnitsData UnitsStruct Units NumFacts Spec SpecFacts StructFacts
  OpFacts NamesFacts ClosureFacts FactorFacts LawFacts WitnessFacts PropFacts OpPropFacts Solve Formulas Correlations FormulaSpec TransferSpec SemFacts SymFacts SweepFacts SimFacts ParamFacts DimlessFacts ProbeFacts DenoteFacts CoefficientFacts GroupFacts ConvSpec ConvCases.
Import ListNotations.
Local Open Scope string_scope.
Local Open Scope list_scope.
Local Open Scope R_scope.

(** ** Pulses *)
Definition f_pexp := FFun exp (FDiv (FNeg (FPow (FVar 1) (eint 2))) (FMul (FMul (FNum 4) (FVar 2)) (FVar 3))).
Definition f_4pdt := FMul (FMul (FMul (FNum 4) (FNum PI)) (FVar 2)) (FVar 3).
Definition f_p3 := FDiv (FMul (FVar 0) f_pexp) (FPow f_4pdt (eflt (Q2Qc (3 # 2)))).
Definition f_p2 := FDiv (FMul (FDiv (FVar 0) (FVar 4)) f_pexp) f_4pdt.
Definition f_p1 := FDiv (FMul (FDiv (FVar 0) (FVar 5)) f_pexp) (FPow f_4pdt half_).
Definition pulse_args (M l d t : string) : list (res qval) :=
  [qsimple Mass 1 M; qsimple Length 1 l; qmulti "DiffusionCoefficient" 1 (d +++ "^2/" +++ t); qsimple Time 1 t; qsimple Length 1 l; qsimple Area 1 (l +++ "^2")].

Definition pulse_sys (f : fx) (M l d t : string) : bool := osys (pulse_args M l d t) f (in_unit (M +++ "/" +++ l +++ "^3")).
Lemma pulse_sweep f : In f [f_p3; f_p2; f_p1] -> forallb (fun M => forallb (fun l => forallb (pulse_sys f M l l) times) lengths) masses = true.
Proof. intro h. repeat destruct h as [<-|h]; try contradiction; vm_compute; reflexivity. Qed.
Lemma pulse_cm f : In f [f_p3; f_p2; f_p1] -> pulse_sys f "kg" "m" "cm" "s" = true.
Proof. intro h. repeat destruct h as [<-|h]; try contradiction; vm_compute; reflexivity. Qed.
Lemma q32 : Q2R (3 # 2) = 3 / 2. Proof. unfold Q2R. cbn. lra. Qed.
Lemma pos_4dt D t : 0 < D -> 0 < t -> 0 < 4 * D * t.
Proof. intros. apply Rmult_lt_0_compat; lra. Qed.
Lemma pos_4pdt D t : 0 < D -> 0 < t -> 0 < 4 * PI * D * t.
Proof. intros. pose proof PI_RGT_0. apply Rmult_lt_0_compat; [apply Rmult_lt_0_compat|]; lra. Qed.
Definition v_p3 (m d D t : R) := m * exp (- d ^ 2 / (4 * D * t)) / Rpower (4 * PI * D * t) (3 / 2).
Definition v_p2 (m d D t L : R) := m / L * exp (- d ^ 2 / (4 * D * t)) / (4 * PI * D * t).
Definition v_p1 (m d D t A : R) := m / A * exp (- d ^ 2 / (4 * D * t)) / sqrt (4 * PI * D * t).
Lemma pulse_runs (M l u t : string) (m d D time L A : R) vm vd vD vt vL vA :
  (forall f, In f [f_p3; f_p2; f_p1] -> pulse_sys f M l u t = true) ->
  simple Mass m M = Ok vm -> simple Length d l = Ok vd -> multi "DiffusionCoefficient" D (u +++ "^2/" +++ t) = Ok vD -> simple Time time t = Ok vt ->
  simple Length L l = Ok vL -> simple Area A (l +++ "^2") = Ok vA -> 0 < D -> 0 < time -> L <> 0 -> A <> 0 ->
  (exists r, run [vm; vd; vD; vt; vL; vA] f_p3 = Ok r /\ value r = v_p3 m d D time /\ denotes r (v_p3 m d D time) (M +++ "/" +++ l +++ "^3")) /\
  (exists r, run [vm; vd; vD; vt; vL; vA] f_p2 = Ok r /\ value r = v_p2 m d D time L /\ denotes r (v_p2 m d D time L) (M +++ "/" +++ l +++ "^3")) /\
  (exists r, run [vm; vd; vD; vt; vL; vA] f_p1 = Ok r /\ value r = v_p1 m d D time A /\ denotes r (v_p1 m d D time A) (M +++ "/" +++ l +++ "^3")).
Proof.
  intros hw h1 h2 h3 h4 h5 h6 pD pt nL nA. pose proof (pos_4dt _ _ pD pt) as p4. pose proof (pos_4pdt _ _ pD pt) as p4p.
  assert (hm : qmakes_all (pulse_args M l u t) [vm; vd; vD; vt; vL; vA] [m; d; D; time; L; A]) by (unfold pulse_args; pmake).
  assert (s1 := hw f_p3 (or_introl eq_refl)). assert (s2 := hw f_p2 (or_intror (or_introl eq_refl))). assert (s3 := hw f_p1 (or_intror (or_intror (or_introl eq_refl)))). unfold pulse_sys in s1, s2, s3.
  assert (n3 : num [m; d; D; time; L; A] f_p3 = v_p3 m d D time) by (cbn [num f_p3 f_pexp f_4pdt nth]; rewrite powr2, powr_float, q32 by exact p4p; reflexivity).
  assert (n2 : num [m; d; D; time; L; A] f_p2 = v_p2 m d D time L) by (cbn [num f_p2 f_pexp f_4pdt nth]; rewrite powr2; reflexivity).
  assert (n1 : num [m; d; D; time; L; A] f_p1 = v_p1 m d D time A) by (cbn [num f_p1 f_pexp f_4pdt nth]; rewrite powr2, half_pow by exact p4p; reflexivity).
  split; [|split].
  - destruct (denotes_run _ _ _ _ _ hm s1) as [r [e [v dn]]].
    { cbn [def num f_p3 f_pexp f_4pdt nth]. repeat split; try exact I; try apply def2; try lra. - apply powr_def, p4p. - rewrite powr_float by exact p4p. apply Rgt_not_eq, exp_pos. }
    rewrite n3 in *. exists r. auto.
  - destruct (denotes_run _ _ _ _ _ hm s2) as [r [e [v dn]]].
    { cbn [def num f_p2 f_pexp f_4pdt nth]. repeat split; try exact I; try apply def2; lra. }
    rewrite n2 in *. exists r. auto.
  - destruct (denotes_run _ _ _ _ _ hm s3) as [r [e [v dn]]].
    { cbn [def num f_p1 f_pexp f_4pdt nth]. repeat split; try exact I; try apply def2; try lra. - apply powr_def, p4p. - rewrite half_pow by exact p4p. apply sqrt_nz, p4p. }
    rewrite n1 in *. exists r. auto.
Qed.

Lemma scale_mass c m M vm : simple Mass m M = Ok vm -> py_mul (VNum c) vm = simple Mass (c * m) M.
Proof. unfold simple. cbn [mk_unit rmap]. intro h. injection h as <-. rewrite (Rmult_comm c m). reflexivity. Qed.
Lemma pulse3_eq shape m M vm vd vD vt vL vA : simple Mass m M = Ok vm -> exists vm', simple Mass (shape_factor shape * m) M = Ok vm' /\
  three_d_pulse_decay vm vd vD vt shape = run [vm'; vd; vD; vt; vL; vA] f_p3.
Proof.
  intro h. unfold three_d_pulse_decay, shape_factor. destruct (String.eqb shape "hemisphere"); [|destruct (String.eqb shape "cube")].
  - unfold omul at 1. cbn [bind]. rewrite (scale_mass _ _ _ _ h). destruct (simple Mass (2 * m) M) as [vm'|] eqn:e; [|discriminate e]. exists vm'. split; [reflexivity|reflexivity].
  - unfold omul at 1. cbn [bind]. rewrite (scale_mass _ _ _ _ h). destruct (simple Mass (8 * m) M) as [vm'|] eqn:e; [|discriminate e]. exists vm'. split; [reflexivity|reflexivity].
  - rewrite Rmult_1_l. exists vm. split; [exact h|reflexivity].
Qed.
Lemma pulse2_eq vm vd vD vt vL vA : two_d_pulse_decay vm vL vd vD vt = run [vm; vd; vD; vt; vL; vA] f_p2.
Proof. unfold two_d_pulse_decay, f_p2. cbn [run var nth_error]. destruct (odiv (Ok vm) (Ok vL)) as [x|]; reflexivity. Qed.
Lemma pulse1_eq vm vd vD vt vL vA : one_d_pulse_decay vm vA vd vD vt = run [vm; vd; vD; vt; vL; vA] f_p1.
Proof. unfold one_d_pulse_decay, f_p1. cbn [run var nth_error]. destruct (odiv (Ok vm) (Ok vA)) as [x|]; reflexivity. Qed.

Lemma pulses shape M l t (m d D time L A : R) vm vd vD vt vL vA : In M masses -> In l lengths -> In t times ->
  simple Mass m M = Ok vm -> simple Length d l = Ok vd -> multi "DiffusionCoefficient" D (l +++ "^2/" +++ t) = Ok vD -> simple Time time t = Ok vt ->
  simple Length L l = Ok vL -> simple Area A (l +++ "^2") = Ok vA -> 0 < D -> 0 < time -> L <> 0 -> A <> 0 ->
  (exists r, three_d_pulse_decay vm vd vD vt shape = Ok r /\
    denotes r (shape_factor shape * m * exp (- d ^ 2 / (4 * D * time)) / Rpower (4 * PI * D * time) (3 / 2)) (M +++ "/" +++ l +++ "^3")) /\
  (exists r, two_d_pulse_decay vm vL vd vD vt = Ok r /\ denotes r (m / L * exp (- d ^ 2 / (4 * D * time)) / (4 * PI * D * time)) (M +++ "/" +++ l +++ "^3")) /\
  (exists r, one_d_pulse_decay vm vA vd vD vt = Ok r /\ denotes r (m / A * exp (- d ^ 2 / (4 * D * time)) / sqrt (4 * PI * D * time)) (M +++ "/" +++ l +++ "^3")).
Proof.
  intros hM hl ht h1 h2 h3 h4 h5 h6 pD pt nL nA.
  assert (hw : forall f, In f [f_p3; f_p2; f_p1] -> pulse_sys f M l l t = true) by (intros f hf; exact (sweep3 (fun a b => pulse_sys f a b b) _ _ _ _ _ _ (pulse_sweep f hf) hM hl ht)).
  destruct (pulse3_eq shape m M vm vd vD vt vL vA h1) as [vm' [h1' e3]].
  destruct (pulse_runs M l l t _ d D time L A _ _ _ _ _ _ hw h1' h2 h3 h4 h5 h6 pD pt nL nA) as [[r3 [g3 [_ k3]]] _].
  destruct (pulse_runs M l l t _ d D time L A _ _ _ _ _ _ hw h1 h2 h3 h4 h5 h6 pD pt nL nA) as [_ [[r2 [g2 [_ k2]]] [r1 [g1 [_ k1]]]]].
  rewrite e3, (pulse2_eq vm vd vD vt vL vA), (pulse1_eq vm vd vD vt vL vA). split; [exists r3|split; [exists r2|exists r1]]; split; assumption.
Qed.
Lemma denotes_inj r x y s : denotes r x s -> denotes r y s -> x = y.
Proof.
  intros [v [e1 q1]] [v' [e2 q2]]. pose proof (q1 lib_si lib_coherent) as h1. pose proof (q2 lib_si lib_coherent) as h2. rewrite h1 in h2.
  unfold constant, mk_multi in *. destruct (String.eqb s EmptyString).
  - cbn [rmap bind] in *. injection e1 as <-. injection e2 as <-. cbn [qty mv mtop mbot] in h2. injection h2 as h2. apply Rmult_eq_reg_r in h2; [exact h2|]. rewrite msize_lin; apply Rgt_not_eq, exp_pos.
  - destruct (parse_units s) as [p|]; cbn [rmap bind] in *; [|discriminate]. injection e1 as <-. injection e2 as <-. cbn [qty mv mtop mbot] in h2. injection h2 as h2. apply Rmult_eq_reg_r in h2; [exact h2|]. rewrite msize_lin; apply Rgt_not_eq, exp_pos.
Qed.
(** With the diffusion coefficient in cm^2/s its number is used as if in m^2/s. *)
Lemma pulse_prefix (m D time : R) vm vd vD vt : 0 < m -> 0 < D -> 0 < time ->
  simple Mass m "kg" = Ok vm -> simple Length 0 "m" = Ok vd -> multi "DiffusionCoefficient" D "cm^2/s" = Ok vD -> simple Time time "s" = Ok vt ->
  exists r, three_d_pulse_decay vm vd vD vt "sphere" = Ok r /\ denotes r (m / Rpower (4 * PI * D * time) (3 / 2)) "kg/m^3" /\
    ~ denotes r (m / Rpower (4 * PI * (D / 10000) * time) (3 / 2)) "kg/m^3".
Proof.
  intros pm pD pt h1 h2 h3 h4. destruct (simple Area 1 "m^2") as [vA|] eqn:hA; [|vm_compute in hA; discriminate].
  destruct (pulse3_eq "sphere" m "kg" vm vd vD vt (VUnit (UO Length 1 "m" (eint 1))) vA h1) as [vm' [h1' e3]]. change (shape_factor "sphere") with 1 in h1'. rewrite Rmult_1_l in h1'.
  destruct (pulse_runs "kg" "m" "cm" "s" m 0 D time 1 1 _ _ _ _ _ _ (fun f h => pulse_cm f h) h1' h2 h3 h4 eq_refl hA pD pt ltac:(lra) ltac:(lra)) as [[r [g [_ k]]] _].
  exists r. rewrite e3. split; [exact g|]. unfold v_p3 in k.
  replace (- 0 ^ 2 / (4 * D * time)) with 0 in k by (field; lra). rewrite exp_0, Rmult_1_r in k. split; [exact k|].
  intro q. pose proof (denotes_inj _ _ _ _ k q) as hq.
  assert (hp : Rpower (4 * PI * (D / 10000) * time) (3 / 2) < Rpower (4 * PI * D * time) (3 / 2)).
  { apply Rpower_inc; [apply pos_4pdt; lra| |lra]. pose proof (pos_4pdt _ _ pD pt). replace (4 * PI * (D / 10000) * time) with (4 * PI * D * time / 10000) by field. lra. }
  assert (p1 : 0 < Rpower (4 * PI * (D / 10000) * time) (3 / 2)) by apply exp_pos.
  assert (p2 : 0 < Rpower (4 * PI * D * time) (3 / 2)) by apply exp_pos. pose proof (Rinv_lt_contravar _ _ (Rmult_lt_0_compat _ _ p1 p2) hp) as hi.
  revert hq hi. generalize (Rpower (4 * PI * (D / 10000) * time) (3 / 2)), (Rpower (4 * PI * D * time) (3 / 2)). intros a b hq hi. unfold Rdiv in hq. apply Rmult_eq_reg_l in hq; lra.
Qed.

(** ** Radiation *)
Definition f_rad := FMul (FMul (FMul (FVar 0) (FVar 1)) (FVar 2)) (FSub (FPow (FVar 3) (eint 4)) (FPow (FVar 4) (eint 4))).
Definition rad_args (a th : string) : list (res qval) :=
  [rmap VMulti (mk_multi MMulti 1%Q "W/m^2*K^4"); qsimple Area 1 a; Ok (VNum 1%Q); qsimple Temperature 1 th; qsimple Temperature 1 th].
Definition rad_sys (a th : string) : bool := osys (rad_args a th) f_rad (fun o => match o with VUnit _ | VMulti _ => true | _ => false end).
Lemma rad_sweep : forallb (fun a => forallb (rad_sys a) temperatures) areas = true.
Proof. vm_compute. reflexivity. Qed.
Definition sigma : R := 5.67 / 10 ^ 8.
Lemma radiation_value a th (A F T1 T2 : R) vA v1 v2 : In a areas -> In th temperatures -> simple Area A a = Ok vA -> simple Temperature T1 th = Ok v1 -> simple Temperature T2 th = Ok v2 ->
  radiative_heat_flow vA (VNum F) v1 v2 = multi "Power" (5.67 / 10 ^ 8 * A * F * (T1 ^ 4 - T2 ^ 4)) "W".
Proof.
  intros ha hth h1 h2 h3. pose proof (sweep2 _ _ _ _ _ rad_sweep ha hth) as hs. unfold rad_sys, rad_args in hs.
  unfold radiative_heat_flow, RADIATION_CONSTANT. destruct (constant (5.67 / 10 ^ 8) "W/m^2*K^4") as [vc|] eqn:hc; [|vm_compute in hc; discriminate].
  match type of hs with osys ?q _ _ = _ => assert (hm : qmakes_all q [vc; vA; VNum F; v1; v2] [5.67 / 10 ^ 8; A; F; T1; T2]) by pmake end.
  destruct (osys_sound _ _ _ _ _ hm hs) as [o [e [ho _]]]; [cbn [def f_rad num nth]; repeat split; apply def4|].
  cbn [num f_rad nth] in e. rewrite !powr4 in e. cbn [run f_rad var nth_error] in e. rewrite e. cbn [bind]. destruct o; try discriminate ho; reflexivity.
Qed.
Lemma power_ok x : exists v, multi "Power" x "W" = Ok v /\ value v = x /\ denotes v x "W".
Proof.
  destruct (multi "Power" x "W") as [v|] eqn:e; [|vm_compute in e; discriminate]. exists v. split; [reflexivity|].
  assert (hm : qmakes_all [qmulti "Power" 1 "W"] [v] [x]) by pmake.
  destruct (denotes_run _ _ _ (FVar 0) "W" hm) as [r [e1 [v1 d1]]]; [vm_compute; reflexivity|exact I|]. injection e1 as <-. auto.
Qed.
Lemma radiation_si (A F T1 T2 : R) vA v1 v2 : simple Area A "m^2" = Ok vA -> simple Temperature T1 "K" = Ok v1 -> simple Temperature T2 "K" = Ok v2 ->
  exists r, radiative_heat_flow vA (VNum F) v1 v2 = Ok r /\ value r = 5.67 / 10 ^ 8 * A * F * (T1 ^ 4 - T2 ^ 4) /\ denotes r (5.67 / 10 ^ 8 * A * F * (T1 ^ 4 - T2 ^ 4)) "W".
Proof.
  intros h1 h2 h3. rewrite (radiation_value "m^2" "K" A F T1 T2) by (assumption || (cbn; tauto)).
  destruct (power_ok (5.67 / 10 ^ 8 * A * F * (T1 ^ 4 - T2 ^ 4))) as [v h]. exists v. exact h.
Qed.
Lemma pow4_inj x y : 0 <= x -> 0 <= y -> x ^ 4 = y ^ 4 -> x = y.
Proof.
  intros hx hy h. destruct (Rtotal_order x y) as [l|[e|l]]; [|exact e|]; exfalso.
  - assert (x ^ 4 < y ^ 4); [|lra]. assert (x ^ 2 < y ^ 2) by nra. assert (0 <= x ^ 2) by nra. replace (x ^ 4) with (x ^ 2 * x ^ 2) by ring. replace (y ^ 4) with (y ^ 2 * y ^ 2) by ring. nra.
  - assert (y ^ 4 < x ^ 4); [|lra]. assert (y ^ 2 < x ^ 2) by nra. assert (0 <= y ^ 2) by nra. replace (x ^ 4) with (x ^ 2 * x ^ 2) by ring. replace (y ^ 4) with (y ^ 2 * y ^ 2) by ring. nra.
Qed.
Lemma radiation_balance a th (A F T1 T2 : R) vA v1 v2 : In a areas -> In th temperatures -> simple Area A a = Ok vA -> simple Temperature T1 th = Ok v1 -> simple Temperature T2 th = Ok v2 ->
  0 < A -> 0 < F -> 0 <= T1 -> 0 <= T2 ->
  exists r r', radiative_heat_flow vA (VNum F) v1 v2 = Ok r /\ radiative_heat_flow vA (VNum F) v2 v1 = Ok r' /\ value r' = - value r /\
    (value r = 0 <-> T1 = T2) /\ (0 < value r <-> T2 < T1).
Proof.
  intros ha hth h1 h2 h3 pA pF p1 p2. rewrite (radiation_value a th A F T1 T2), (radiation_value a th A F T2 T1) by assumption.
  destruct (power_ok (5.67 / 10 ^ 8 * A * F * (T1 ^ 4 - T2 ^ 4))) as [r [e1 [w1 _]]]. destruct (power_ok (5.67 / 10 ^ 8 * A * F * (T2 ^ 4 - T1 ^ 4))) as [r' [e2 [w2 _]]].
  exists r, r'. split; [exact e1|]. split; [exact e2|]. rewrite w1, w2.
  assert (pk : 0 < 5.67 / 10 ^ 8 * A * F) by (apply Rmult_lt_0_compat; [apply Rmult_lt_0_compat; lra|lra]).
  revert pk. generalize (5.67 / 10 ^ 8 * A * F). intros k pk. split; [ring|]. split.
  - split.
    + intro h. apply Rmult_integral in h. destruct h as [h|h]; [lra|]. apply pow4_inj; lra.
    + intros ->. ring.
  - assert (m : forall x y, 0 <= x -> x < y -> x ^ 4 < y ^ 4).
    { intros x y hx l. assert (x ^ 2 < y ^ 2) by nra. assert (0 <= x ^ 2) by nra. replace (x ^ 4) with (x ^ 2 * x ^ 2) by ring. replace (y ^ 4) with (y ^ 2 * y ^ 2) by ring. nra. }
    split; intro h.
    + destruct (Rtotal_order T2 T1) as [l|[->|l]]; [exact l| |]; exfalso; [|pose proof (m _ _ p1 l)]; nra.
    + pose proof (m _ _ p2 h). nra.
Qed.
(** A square foot radiates as much as a square metre. *)
Lemma radiation_label (A F T1 T2 : R) vA vA' v1 v2 : simple Area A "m^2" = Ok vA -> simple Area A "ft^2" = Ok vA' -> simple Temperature T1 "K" = Ok v1 -> simple Temperature T2 "K" = Ok v2 ->
  radiative_heat_flow vA (VNum F) v1 v2 = radiative_heat_flow vA' (VNum F) v1 v2.
Proof. intros h1 h2 h3 h4. rewrite (radiation_value "m^2" "K" A F T1 T2), (radiation_value "ft^2" "K" A F T1 T2) by (assumption || (cbn; tauto)). reflexivity. Qed.
Lemma pulse_prefix_ex : exists vm vd vD vt r, simple Mass 1 "kg" = Ok vm /\ simple Length 0 "m" = Ok vd /\ multi "DiffusionCoefficient" 1 "cm^2/s" = Ok vD /\ simple Time 1 "s" = Ok vt /\
  three_d_pulse_decay vm vd vD vt "sphere" = Ok r /\ ~ denotes r (1 / Rpower (4 * PI * (1 / 10000) * 1) (3 / 2)) "kg/m^3".
Proof.
  destruct (simple Mass 1 "kg") as [vm|] eqn:h1; [|vm_compute in h1; discriminate]. destruct (simple Length 0 "m") as [vd|] eqn:h2; [|vm_compute in h2; discriminate].
  destruct (multi "DiffusionCoefficient" 1 "cm^2/s") as [vD|] eqn:h3; [|vm_compute in h3; discriminate]. destruct (simple Time 1 "s") as [vt|] eqn:h4; [|vm_compute in h4; discriminate].
  destruct (pulse_prefix 1 1 1 vm vd vD vt ltac:(lra) ltac:(lra) ltac:(lra) h1 h2 h3 h4) as [r [e [_ n]]]. exists vm, vd, vD, vt, r. repeat split; assumption.
Qed.
Lemma radiation_label_ex : exists vA vA' v1 v2 r, simple Area 1 "m^2" = Ok vA /\ simple Area 1 "ft^2" = Ok vA' /\ simple Temperature 2 "K" = Ok v1 /\ simple Temperature 1 "K" = Ok v2 /\
  radiative_heat_flow vA (VNum 1) v1 v2 = Ok r /\ radiative_heat_flow vA' (VNum 1) v1 v2 = Ok r /\ value r <> 0.
Proof.
  destruct (simple Area 1 "m^2") as [vA|] eqn:h1; [|vm_compute in h1; discriminate]. destruct (simple Area 1 "ft^2") as [vA'|] eqn:h2; [|vm_compute in h2; discriminate].
  destruct (simple Temperature 2 "K") as [v1|] eqn:h3; [|vm_compute in h3; discriminate]. destruct (simple Temperature 1 "K") as [v2|] eqn:h4; [|vm_compute in h4; discriminate].
  destruct (radiation_si 1 1 2 1 vA v1 v2 h1 h3 h4) as [r [e [v _]]]. exists vA, vA', v1, v2, r. repeat split.
  - exact e.
  - rewrite <- (radiation_label 1 1 2 1 vA vA' v1 v2 h1 h2 h3 h4). exact e.
  - rewrite v. lra.
Qed.
