(** * TransportFacts: pipes, spheres and diffusion *)
From Coq Require Import String Ascii List ZArith QArith Qcanon Bool Reals Qreals Lia Lra.
From Verif Require Import Py Num UnitsData UnitsStruct Units NumFacts Spec SpecFacts StructFacts
  OpFacts NamesFacts ClosureFacts FactorFacts LawFacts WitnessFacts OpPropFacts Solve Formulas FormulaSpec SemFacts SymFacts SweepFacts SimFacts ConductionFacts.
Import ListNotations.
Local Open Scope string_scope.
Local Open Scope list_scope.
Local Open Scope R_scope.

(** ** The physical quantity of planar_heat's answer *)
Lemma ph_quantity k (t1 t2 dd : unit_obj R) A q w x y1 y2 z d : plain_val k -> kind k = KMulti -> plain_val (VUnit t1) -> plain_val (VUnit t2) -> plain_val A -> plain_val (VUnit dd) ->
  un t2 <> un dd -> uv dd <> 0 ->
  planar_heat [AVal k; AVal (VUnit t1); AVal (VUnit t2); AVal A; AVal (VUnit dd)] [] = Ok q ->
  coherent w -> qty w k = Some x -> qty w A = Some z -> qty w (VUnit t1) = Some y1 -> qty w (VUnit t2) = Some y2 -> qty w (VUnit dd) = Some d ->
  qty w q = Some (- (x * z * (y2 - y1) / d)).
Proof.
  intros pk kk p1 p2 pA pd hn nd h hw qk qA q1 q2 qd. rewrite ph_q_run in h. cbn [run ph_q var nth_error] in h.
  unfold omul, odiv, osub, oneg in h. cbn [bind] in h.
  destruct (is_of k pk) as [fk ik]. destruct (is_of A pA) as [fA iA]. destruct (is_of _ p1) as [f1 i1]. destruct (is_of _ p2) as [f2 i2]. destruct (is_of _ pd) as [fd id].
  destruct (is_neg k fk ik) as [nk [ek [ink [_ knk]]]]. rewrite ek in h. cbn [bind] in h.
  destruct (is_mul nk A _ _ ink iA ltac:(apply no_loss_l; congruence)) as [ka [eka ika]]. rewrite eka in h. cbn [bind] in h.
  apply bind_ok in h. destruct h as [g [hg h]]. apply bind_ok in hg. destruct hg as [dt [hdt hg]].
  destruct (is_sub _ _ _ _ _ i2 i1 eq_refl hdt) as [idt [kdt [sdt _]]].
  destruct (is_div dt (VUnit dd) _ _ idt id nd ltac:(left; intros v e; subst dt; discriminate kdt)) as [g' [eg ig]].
  rewrite eg in hg. injection hg as <-.
  assert (kg : kind g' = KMulti).
  { destruct dt as [| | |u|]; try discriminate kdt. apply (div_kind_uu u dd); [|exact eg]. cbn in sdt. injection sdt as e1 _. congruence. }
  destruct (is_mul ka g' _ _ ika ig ltac:(apply no_loss_r; exact kg)) as [q' [eq iq]]. rewrite eq in h. injection h as <-.
  destruct ik as [_ ik]. destruct iA as [_ iA]. destruct i1 as [_ i1]. destruct i2 as [_ i2]. destruct id as [_ id]. destruct iq as [_ iq].
  rewrite (iq w hw). rewrite (ik w hw) in qk. rewrite (iA w hw) in qA. rewrite (i1 w hw) in q1. rewrite (i2 w hw) in q2. rewrite (id w hw) in qd.
  injection qk as <-. injection qA as <-. injection q1 as <-. injection q2 as <-. injection qd as <-. f_equal. unfold Rdiv. ring.
Qed.

(** ** Formulas proportional to a difference *)
(** What is shown of each: its value, and what changing one argument does. *)
Lemma ln_nz x y : 0 < x -> 0 < y -> x <> y -> ln (x / y) <> 0.
Proof.
  intros hx hy hn e. apply hn. apply ln_inv; [assumption|assumption|].
  unfold Rdiv in e. rewrite ln_mult, ln_Rinv in e by (try assumption; apply Rinv_0_lt_compat; assumption). lra.
Qed.
Definition f_pipe := FMul (FMul (FMul (FMul (FNum (-2)) (FNum PI)) (FVar 3)) (FVar 0)) (FDiv (FSub (FVar 2) (FVar 1)) (FLog (FDiv (FVar 4) (FVar 5)))).
Lemma pipe_run k T1 T2 l r2 r1 : pipe_heat k T1 T2 l r2 r1 = run [k; T1; T2; l; r2; r1] f_pipe.
Proof. reflexivity. Qed.
Lemma pipe_mass_run D r2 r1 C2 C1 L : pipe_mass_transfer D r2 r1 C2 C1 L = run [D; C1; C2; L; r2; r1] f_pipe.
Proof. reflexivity. Qed.
Definition f_sphere := FMul (FMul (FMul (FMul (FNum (-4)) (FNum PI)) (FVar 3)) (FVar 2)) (FDiv (FSub (FVar 1) (FVar 0)) (FSub (FVar 2) (FVar 3))).
Lemma sphere_run k T1 T2 ro ri : sphere_heat k T1 T2 ro ri = run [T1; T2; ro; ri] f_sphere.
Proof. reflexivity. Qed.
Definition f_sphere_mass := FMul (FMul (FMul (FMul (FMul (FNum (-4)) (FNum PI)) (FVar 3)) (FVar 2)) (FVar 4)) (FDiv (FSub (FVar 1) (FVar 0)) (FSub (FVar 2) (FVar 3))).
Lemma sphere_mass_run D r2 r1 C2 C1 : sphere_mass_transfer D r2 r1 C2 C1 = run [C1; C2; r2; r1; D] f_sphere_mass.
Proof. reflexivity. Qed.
Lemma planar_mass_run D A C2 C1 d : planar_mass_transfer D A C2 C1 d = run [D; C1; C2; A; d] ph_q.
Proof. reflexivity. Qed.
Lemma planar_mass_flux_run D C2 C1 d : planar_mass_flux D C2 C1 d = run [D; C1; C2; d] pf_q.
Proof. reflexivity. Qed.

Ltac pl := repeat (apply Forall_cons; [assumption|]); apply Forall_nil.
Lemma div_pos x y : 0 < x -> 0 < y -> 0 < x / y.
Proof. intros. apply Rmult_lt_0_compat; [assumption|apply Rinv_0_lt_compat; assumption]. Qed.

Lemma run_scaled f vs vs' r c : run vs f = Ok r -> Forall plain_val vs -> Forall plain_val vs' -> Forall2 same_unit vs vs' ->
  def (map value vs) f -> def (map value vs') f -> num (map value vs') f = c * num (map value vs) f ->
  exists r', run vs' f = Ok r' /\ value r' = c * value r /\ same_unit r r'.
Proof.
  intros h p p' hs d d' hc. assert (he : map erase vs = map erase vs').
  { clear -p p' hs. revert p p'. induction hs as [|x y l l' e _ IH]; intros p p'; [reflexivity|]. inversion p; subst. inversion p'; subst.
    cbn. f_equal; [apply same_erase; assumption|apply IH; assumption]. }
  destruct (run_same f vs vs' r p p' he d d' h) as [r' [e [v s]]]. destruct (run_value f vs r h p d) as [v0 _].
  exists r'. split; [exact e|]. split; [congruence|exact s].
Qed.
Lemma diff_zero c a b : c <> 0 -> c * (b - a) = 0 <-> a = b.
Proof. intro h. split; [intro e; apply Rmult_integral in e; destruct e; [contradiction|lra]|intros ->; ring]. Qed.
Lemma same_refl v : plain_val v -> same_unit v v.
Proof. destruct v; cbn; tauto. Qed.
Lemma same_sym a b : same_unit a b -> same_unit b a.
Proof. destruct a; destruct b; cbn; try tauto; intros [-> [-> ->]]; auto. Qed.
Ltac sames := repeat (apply Forall2_cons; [first [assumption|apply same_refl; assumption|apply same_sym; assumption]|]); apply Forall2_nil.
Lemma div_nz x y : x <> 0 -> y <> 0 -> x / y <> 0.
Proof. intros h1 h2. apply Rmult_integral_contrapositive_currified; [exact h1|apply Rinv_neq_0_compat, h2]. Qed.
Ltac nzs := repeat match goal with
  | |- - _ <> 0 => apply Ropp_neq_0_compat
  | |- _ / _ <> 0 => apply div_nz
  | |- _ * _ <> 0 => apply Rmult_integral_contrapositive_currified
  | |- ln _ <> 0 => apply ln_nz
  end; try assumption; try lra.

(** Pipes (heat and mass): conductivity or diffusivity [k], boundary values [a]
    and [b], length, radii. *)
Lemma pipe_def k a b l r2 r1 : 0 < r2 -> 0 < r1 -> r2 <> r1 -> def [k; a; b; l; r2; r1] f_pipe.
Proof. intros. cbn. repeat split; try lra; [apply div_pos; assumption|apply ln_nz; assumption]. Qed.
Lemma pipe_props k a b l r2 r1 q : plain_val k -> plain_val a -> plain_val b -> plain_val l -> plain_val r2 -> plain_val r1 ->
  same_unit a b -> 0 < value k -> 0 < value l -> 0 < value r2 -> 0 < value r1 -> value r2 <> value r1 ->
  run [k; a; b; l; r2; r1] f_pipe = Ok q ->
  value q = - (2 * PI * value l * value k * ((value b - value a) / ln (value r2 / value r1))) /\
  (value q = 0 <-> value a = value b) /\
  (exists q', run [k; b; a; l; r2; r1] f_pipe = Ok q' /\ value q' = - value q /\ same_unit q q') /\
  (forall k' c, plain_val k' -> same_unit k k' -> value k' = c * value k ->
     exists q', run [k'; a; b; l; r2; r1] f_pipe = Ok q' /\ value q' = c * value q /\ same_unit q q').
Proof.
  intros pk pa pb p3 p4 p5 hs hk hl h2 h1 hn h. pose proof PI_RGT_0 as hpi.
  assert (ev : value q = - (2 * PI * value l * value k * ((value b - value a) / ln (value r2 / value r1)))).
  { destruct (run_value _ _ _ h ltac:(pl) (pipe_def _ _ _ _ _ _ h2 h1 hn)) as [e _]. rewrite e. cbn. ring. }
  split; [exact ev|]. split; [|split].
  - rewrite ev. replace (- (2 * PI * value l * value k * ((value b - value a) / ln (value r2 / value r1))))
      with (- (2 * PI * value l * value k / ln (value r2 / value r1)) * (value b - value a)) by (unfold Rdiv; ring).
    apply diff_zero. nzs.
  - destruct (run_scaled f_pipe [k; a; b; l; r2; r1] [k; b; a; l; r2; r1] q (-1) h) as [q' [e [v s]]];
      [pl|pl|sames|apply pipe_def; assumption|apply pipe_def; assumption|cbn; unfold Rdiv; ring|].
    exists q'. split; [exact e|]. split; [rewrite v; ring|exact s].
  - intros k' c pk' hk' hc.
    destruct (run_scaled f_pipe [k; a; b; l; r2; r1] [k'; a; b; l; r2; r1] q c h) as [q' [e [v s]]];
      [pl|pl|sames|apply pipe_def; assumption|apply pipe_def; assumption|cbn; rewrite hc; unfold Rdiv; ring|].
    exists q'. auto.
Qed.
(** Spheres: sphere_heat leaves out the conductivity. *)
Lemma sphere_props a b ro ri q : plain_val a -> plain_val b -> plain_val ro -> plain_val ri ->
  same_unit a b -> 0 < value ro -> 0 < value ri -> value ro <> value ri ->
  run [a; b; ro; ri] f_sphere = Ok q ->
  value q = - (4 * PI * value ri * value ro * ((value b - value a) / (value ro - value ri))) /\
  (value q = 0 <-> value a = value b) /\
  (exists q', run [b; a; ro; ri] f_sphere = Ok q' /\ value q' = - value q /\ same_unit q q').
Proof.
  intros pa pb p4 p5 hs h2 h1 hn h. pose proof PI_RGT_0 as hpi.
  assert (hd : forall x y, def [x; y; value ro; value ri] f_sphere) by (intros; cbn; repeat split; lra).
  assert (ev : value q = - (4 * PI * value ri * value ro * ((value b - value a) / (value ro - value ri)))).
  { destruct (run_value _ _ _ h ltac:(pl) (hd _ _)) as [e _]. rewrite e. cbn. ring. }
  split; [exact ev|]. split.
  - rewrite ev. replace (- (4 * PI * value ri * value ro * ((value b - value a) / (value ro - value ri))))
      with (- (4 * PI * value ri * value ro / (value ro - value ri)) * (value b - value a)) by (unfold Rdiv; ring).
    apply diff_zero. nzs.
  - destruct (run_scaled f_sphere [a; b; ro; ri] [b; a; ro; ri] q (-1) h) as [q' [e [v s]]];
      [pl|pl|sames|apply hd|apply hd|cbn; unfold Rdiv; ring|].
    exists q'. split; [exact e|]. split; [rewrite v; ring|exact s].
Qed.
Lemma sphere_mass_props a b ro ri D q : plain_val a -> plain_val b -> plain_val ro -> plain_val ri -> plain_val D ->
  same_unit a b -> 0 < value ro -> 0 < value ri -> value ro <> value ri -> 0 < value D ->
  run [a; b; ro; ri; D] f_sphere_mass = Ok q ->
  value q = - (4 * PI * value ri * value ro * value D * ((value b - value a) / (value ro - value ri))) /\
  (value q = 0 <-> value a = value b) /\
  (exists q', run [b; a; ro; ri; D] f_sphere_mass = Ok q' /\ value q' = - value q /\ same_unit q q').
Proof.
  intros pa pb p4 p5 pD hs h2 h1 hn hD h. pose proof PI_RGT_0 as hpi.
  assert (hd : forall x y, def [x; y; value ro; value ri; value D] f_sphere_mass) by (intros; cbn; repeat split; lra).
  assert (ev : value q = - (4 * PI * value ri * value ro * value D * ((value b - value a) / (value ro - value ri)))).
  { destruct (run_value _ _ _ h ltac:(pl) (hd _ _)) as [e _]. rewrite e. cbn. ring. }
  split; [exact ev|]. split.
  - rewrite ev. replace (- (4 * PI * value ri * value ro * value D * ((value b - value a) / (value ro - value ri))))
      with (- (4 * PI * value ri * value ro * value D / (value ro - value ri)) * (value b - value a)) by (unfold Rdiv; ring).
    apply diff_zero. nzs.
  - destruct (run_scaled f_sphere_mass [a; b; ro; ri; D] [b; a; ro; ri; D] q (-1) h) as [q' [e [v s]]];
      [pl|pl|sames|apply hd|apply hd|cbn; unfold Rdiv; ring|].
    exists q'. split; [exact e|]. split; [rewrite v; ring|exact s].
Qed.
Lemma planar_props D a b A d q : plain_val D -> plain_val a -> plain_val b -> plain_val A -> plain_val d ->
  same_unit a b -> 0 < value D -> 0 < value A -> 0 < value d ->
  run [D; a; b; A; d] ph_q = Ok q ->
  value q = - (value D * value A * ((value b - value a) / value d)) /\
  (value q = 0 <-> value a = value b) /\
  (exists q', run [D; b; a; A; d] ph_q = Ok q' /\ value q' = - value q /\ same_unit q q').
Proof.
  intros pD pa pb pA pd hs hD hA h1 h.
  assert (hd : forall x y, def [value D; x; y; value A; value d] ph_q) by (intros; cbn; repeat split; lra).
  assert (ev : value q = - (value D * value A * ((value b - value a) / value d))).
  { destruct (run_value _ _ _ h ltac:(pl) (hd _ _)) as [e _]. rewrite e. cbn. ring. }
  split; [exact ev|]. split.
  - rewrite ev. replace (- (value D * value A * ((value b - value a) / value d))) with (- (value D * value A / value d) * (value b - value a)) by (unfold Rdiv; ring).
    apply diff_zero. nzs.
  - destruct (run_scaled ph_q [D; a; b; A; d] [D; b; a; A; d] q (-1) h) as [q' [e [v s]]];
      [pl|pl|sames|apply hd|apply hd|cbn; unfold Rdiv; ring|].
    exists q'. split; [exact e|]. split; [rewrite v; ring|exact s].
Qed.
Lemma planar_flux_props D a b d q : plain_val D -> plain_val a -> plain_val b -> plain_val d ->
  same_unit a b -> 0 < value D -> 0 < value d ->
  run [D; a; b; d] pf_q = Ok q ->
  value q = - (value D * ((value b - value a) / value d)) /\
  (value q = 0 <-> value a = value b) /\
  (exists q', run [D; b; a; d] pf_q = Ok q' /\ value q' = - value q /\ same_unit q q').
Proof.
  intros pD pa pb pd hs hD h1 h.
  assert (hd : forall x y, def [value D; x; y; value d] pf_q) by (intros; cbn; repeat split; lra).
  assert (ev : value q = - (value D * ((value b - value a) / value d))).
  { destruct (run_value _ _ _ h ltac:(pl) (hd _ _)) as [e _]. rewrite e. cbn. ring. }
  split; [exact ev|]. split.
  - rewrite ev. replace (- (value D * ((value b - value a) / value d))) with (- (value D / value d) * (value b - value a)) by (unfold Rdiv; ring).
    apply diff_zero. nzs.
  - destruct (run_scaled pf_q [D; a; b; d] [D; b; a; d] q (-1) h) as [q' [e [v s]]];
      [pl|pl|sames|apply hd|apply hd|cbn; unfold Rdiv; ring|].
    exists q'. split; [exact e|]. split; [rewrite v; ring|exact s].
Qed.

(** ** In consistent units *)
(** The result is one unit, alone in a numerator. *)
Definition is_multi1 (n : string) (s : sval) : bool :=
  match s with VMulti m => match mtop m, mbot m with [x], nil => String.eqb (bname x) n && e_is (bexp x) 1 | _, _ => false end | _ => false end.
Definition is_ok (s : sval) : bool := true.
Definition pipe_sys p l th : bool :=
  sys_ok [smulti "ThermalConductivity" (p +++ l +++ "*" +++ th); ssimple Temperature th; ssimple Temperature th; ssimple Length l; ssimple Length l; ssimple Length l] f_pipe is_ok.
Lemma pipe_sweep : forallb (fun x => forallb (fun y => forallb (pipe_sys x y) temperatures) lengths) powers = true.
Proof. vm_compute. reflexivity. Qed.
Lemma pipe_units p l th (k T1 T2 len r2 r1 : R) vk v1 v2 vl vr2 vr1 : In p powers -> In l lengths -> In th temperatures ->
  multi "ThermalConductivity" k (p +++ l +++ "*" +++ th) = Ok vk -> simple Temperature T1 th = Ok v1 -> simple Temperature T2 th = Ok v2 ->
  simple Length len l = Ok vl -> simple Length r2 l = Ok vr2 -> simple Length r1 l = Ok vr1 ->
  0 < r2 -> 0 < r1 -> r2 <> r1 ->
  exists q, pipe_heat vk v1 v2 vl vr2 vr1 = Ok q /\ value q = - (2 * PI * len * k * (T2 - T1) / ln (r2 / r1)).
Proof.
  intros ip il it hk h1 h2 hl hr2 hr1 p2 p1 hn. pose proof (sweep3 _ _ _ _ _ _ _ pipe_sweep ip il it) as hs. unfold pipe_sys in hs.
  assert (hm : makes_all [smulti "ThermalConductivity" (p +++ l +++ "*" +++ th); ssimple Temperature th; ssimple Temperature th; ssimple Length l; ssimple Length l; ssimple Length l]
      [vk; v1; v2; vl; vr2; vr1] [k; T1; T2; len; r2; r1]) by make.
  destruct (sys_sound _ _ _ _ _ hm hs (pipe_def _ _ _ _ _ _ p2 p1 hn)) as [q [e [_ [v _]]]].
  exists q. rewrite pipe_run. split; [exact e|]. rewrite v. cbn. unfold Rdiv. ring.
Qed.
Lemma sphere_ignores k k' a b ro ri : sphere_heat k a b ro ri = sphere_heat k' a b ro ri.
Proof. reflexivity. Qed.
Definition sphere_sys l th : bool := sys_ok [ssimple Temperature th; ssimple Temperature th; ssimple Length l; ssimple Length l] f_sphere is_ok.
Lemma sphere_sweep : forallb (fun x => forallb (sphere_sys x) temperatures) lengths = true.
Proof. vm_compute. reflexivity. Qed.
Lemma sphere_units l th (T1 T2 ro ri : R) vk v1 v2 vo vi : In l lengths -> In th temperatures ->
  simple Temperature T1 th = Ok v1 -> simple Temperature T2 th = Ok v2 -> simple Length ro l = Ok vo -> simple Length ri l = Ok vi -> ro <> ri ->
  exists q, sphere_heat vk v1 v2 vo vi = Ok q /\ value q = - (4 * PI * ri * ro * (T2 - T1) / (ro - ri)).
Proof.
  intros il it h1 h2 ho hi hn. pose proof (sweep2 _ _ _ _ _ sphere_sweep il it) as hs. unfold sphere_sys in hs.
  assert (hm : makes_all [ssimple Temperature th; ssimple Temperature th; ssimple Length l; ssimple Length l] [v1; v2; vo; vi] [T1; T2; ro; ri]) by make.
  destruct (sys_sound _ _ _ _ _ hm hs) as [q [e [_ [v _]]]]; [cbn; repeat split; lra|].
  exists q. rewrite sphere_run. split; [exact e|]. rewrite v. cbn. unfold Rdiv. ring.
Qed.
Lemma sphere_refuted : exists vk vk' v1 v2 vo vi q,
  multi "ThermalConductivity" 1 "W/m*K" = Ok vk /\ multi "ThermalConductivity" 2 "W/m*K" = Ok vk' /\
  simple Temperature 300 "K" = Ok v1 /\ simple Temperature 310 "K" = Ok v2 /\ simple Length 2 "m" = Ok vo /\ simple Length 1 "m" = Ok vi /\
  sphere_heat vk v1 v2 vo vi = Ok q /\ sphere_heat vk' v1 v2 vo vi = Ok q /\ value q < 0.
Proof.
  destruct (multi "ThermalConductivity" 1 "W/m*K") as [vk|] eqn:e1; [|vm_compute in e1; discriminate].
  destruct (multi "ThermalConductivity" 2 "W/m*K") as [vk'|] eqn:e2; [|vm_compute in e2; discriminate].
  destruct (simple Temperature 300 "K") as [v1|] eqn:e3; [|discriminate]. destruct (simple Temperature 310 "K") as [v2|] eqn:e4; [|discriminate].
  destruct (simple Length 2 "m") as [vo|] eqn:e5; [|discriminate]. destruct (simple Length 1 "m") as [vi|] eqn:e6; [|discriminate].
  destruct (sphere_units "m" "K" 300 310 2 1 vk v1 v2 vo vi) as [q [e v]]; try assumption; [left; reflexivity|left; reflexivity|lra|].
  exists vk, vk', v1, v2, vo, vi, q. repeat split; try assumption. rewrite v. pose proof PI_RGT_0. unfold Rdiv. replace (/ (2 - 1)) with 1 by field. lra.
Qed.

(** Diffusion, in moles or masses. *)
Definition mass_args (n l t : string) : list (res sval) :=
  [smulti "DiffusionCoefficient" (l +++ "^2/" +++ t); smulti "Concentration" (n +++ "/" +++ l +++ "^3"); smulti "Concentration" (n +++ "/" +++ l +++ "^3");
   ssimple Area (l +++ "^2"); ssimple Length l; ssimple Length l; ssimple Length l].
Definition g_pipe := FMul (FMul (FMul (FMul (FNum (-2)) (FNum PI)) (FVar 4)) (FVar 0)) (FDiv (FSub (FVar 2) (FVar 1)) (FLog (FDiv (FVar 5) (FVar 6)))).
Definition g_sphere := FMul (FMul (FMul (FMul (FMul (FNum (-4)) (FNum PI)) (FVar 6)) (FVar 5)) (FVar 0)) (FDiv (FSub (FVar 2) (FVar 1)) (FSub (FVar 5) (FVar 6))).
Definition g_flux := FMul (FNeg (FVar 0)) (FDiv (FSub (FVar 2) (FVar 1)) (FVar 4)).
Definition mass_sys n l t : bool :=
  sys_ok (mass_args n l t) ph_q is_ok && sys_ok (mass_args n l t) g_flux is_ok && sys_ok (mass_args n l t) g_pipe is_ok && sys_ok (mass_args n l t) g_sphere is_ok.
Lemma mass_sweep : forallb (fun x => forallb (fun y => forallb (mass_sys x y) times) lengths) substances = true.
Proof. vm_compute. reflexivity. Qed.
Lemma mass_units n l t (D C1 C2 A len r2 r1 : R) vD v1 v2 vA vl vr2 vr1 : In n substances -> In l lengths -> In t times ->
  multi "DiffusionCoefficient" D (l +++ "^2/" +++ t) = Ok vD -> multi "Concentration" C1 (n +++ "/" +++ l +++ "^3") = Ok v1 -> multi "Concentration" C2 (n +++ "/" +++ l +++ "^3") = Ok v2 ->
  simple Area A (l +++ "^2") = Ok vA -> simple Length len l = Ok vl -> simple Length r2 l = Ok vr2 -> simple Length r1 l = Ok vr1 ->
  0 < len -> 0 < r2 -> 0 < r1 -> r2 <> r1 ->
  exists q1 q2 q3 q4, planar_mass_transfer vD vA v2 v1 vl = Ok q1 /\ planar_mass_flux vD v2 v1 vl = Ok q2 /\
    pipe_mass_transfer vD vr2 vr1 v2 v1 vl = Ok q3 /\ sphere_mass_transfer vD vr2 vr1 v2 v1 = Ok q4.
Proof.
  intros i1 i2 i3 hD h1 h2 hA hl hr2 hr1 p0 p2 p1 hn. pose proof (sweep3 _ _ _ _ _ _ _ mass_sweep i1 i2 i3) as hs. unfold mass_sys in hs.
  rewrite !andb_true_iff in hs. destruct hs as [[[s1 s2] s3] s4].
  assert (hm : makes_all (mass_args n l t) [vD; v1; v2; vA; vl; vr2; vr1] [D; C1; C2; A; len; r2; r1]) by make.
  destruct (sys_sound _ _ _ _ _ hm s1) as [q1 [e1 _]]; [cbn; repeat split; lra|].
  destruct (sys_sound _ _ _ _ _ hm s2) as [q2 [e2 _]]; [cbn; repeat split; lra|].
  destruct (sys_sound _ _ _ _ _ hm s3) as [q3 [e3 _]]; [cbn; repeat split; try lra; [apply div_pos; assumption|apply ln_nz; assumption]|].
  destruct (sys_sound _ _ _ _ _ hm s4) as [q4 [e4 _]]; [cbn; repeat split; lra|].
  exists q1, q2, q3, q4. auto.
Qed.
