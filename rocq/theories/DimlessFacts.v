(** * DimlessFacts: Reynolds, Biot, Prandtl and Schmidt numbers *)
From Coq Require Import String Ascii List ZArith QArith Qcanon Bool Reals Qreals Lia Lra.
From Verif Require Import Py Num UnitsData UnitsStruct Units NumFacts Spec SpecFacts StructFacts
  OpFacts NamesFacts ClosureFacts FactorFacts LawFacts WitnessFacts OpPropFacts Solve Formulas FormulaSpec SemFacts SymFacts SweepFacts SimFacts ConductionFacts TransportFacts.
Import ListNotations.
Local Open Scope string_scope.
Local Open Scope list_scope.
Local Open Scope R_scope.

(** ** Quantities *)
Lemma kind_multi a : kind a = KMulti -> forall u, a <> VUnit u.
Proof. intros h u e. subst a. discriminate. Qed.
Lemma kind_multi_n a : kind a = KMulti -> forall x, a <> VNum x.
Proof. intros h u e. subst a. discriminate. Qed.
Ltac isof v f i := match goal with p : plain_val v |- _ => destruct (is_of v p) as [f i] end.

Lemma reynolds_qty rho v L mu w x y z u : plain_val rho -> plain_val v -> plain_val L -> plain_val mu ->
  kind rho = KMulti -> kind v = KMulti -> kind mu = KMulti -> value mu <> 0 -> coherent w ->
  qty w rho = Some x -> qty w v = Some y -> qty w L = Some z -> qty w mu = Some u ->
  exists r, reynolds rho v L mu = Ok r /\ qty w r = Some (x * y * z / u).
Proof.
  intros p1 p2 p3 p4 k1 k2 k4 hz hw q1 q2 q3 q4.
  isof rho g1 i1. isof v g2 i2. isof L g3 i3. isof mu g4 i4.
  unfold reynolds, omul, odiv. cbn [bind].
  destruct (is_mul _ _ _ _ i1 i2 (no_loss_l _ _ k1)) as [a [ea ia]]. rewrite ea. cbn [bind].
  destruct (is_mul _ _ _ _ ia i3 (no_loss_l _ _ (mul_kind_mm _ _ _ k1 k2 ea))) as [b [eb ib]]. rewrite eb. cbn [bind].
  destruct (is_div _ _ _ _ ib i4 hz (or_intror (kind_multi _ k4))) as [r [er ir]].
  exists r. split; [exact er|]. destruct ir as [_ ir]. rewrite (ir w hw).
  destruct i1 as [_ i1]. destruct i2 as [_ i2]. destruct i3 as [_ i3]. destruct i4 as [_ i4].
  rewrite (i1 w hw) in q1. rewrite (i2 w hw) in q2. rewrite (i3 w hw) in q3. rewrite (i4 w hw) in q4. congruence.
Qed.
Lemma biot_qty h L k w x y z : plain_val h -> plain_val L -> plain_val k ->
  kind h = KMulti -> kind k = KMulti -> value k <> 0 -> coherent w ->
  qty w h = Some x -> qty w L = Some y -> qty w k = Some z ->
  exists r, biot h L k = Ok r /\ qty w r = Some (x * y / z).
Proof.
  intros p1 p2 p3 k1 k3 hz hw q1 q2 q3.
  isof h g1 i1. isof L g2 i2. isof k g3 i3.
  unfold biot, omul, odiv. cbn [bind].
  destruct (is_mul _ _ _ _ i1 i2 (no_loss_l _ _ k1)) as [a [ea ia]]. rewrite ea. cbn [bind].
  destruct (is_div _ _ _ _ ia i3 hz (or_intror (kind_multi _ k3))) as [r [er ir]].
  exists r. split; [exact er|]. destruct ir as [_ ir]. rewrite (ir w hw).
  destruct i1 as [_ i1]. destruct i2 as [_ i2]. destruct i3 as [_ i3].
  rewrite (i1 w hw) in q1. rewrite (i2 w hw) in q2. rewrite (i3 w hw) in q3. congruence.
Qed.
Lemma prandtl_qty mu cp k w x y z : plain_val mu -> plain_val cp -> plain_val k ->
  kind mu = KMulti -> kind k = KMulti -> value k <> 0 -> coherent w ->
  qty w mu = Some x -> qty w cp = Some y -> qty w k = Some z ->
  exists r, prandtl mu cp k = Ok r /\ qty w r = Some (x * y / z).
Proof. exact (biot_qty mu cp k w x y z). Qed.
Lemma schmidt_qty mu rho D w x y z : plain_val mu -> plain_val rho -> plain_val D ->
  kind rho = KMulti -> kind D = KMulti -> value rho <> 0 -> value D <> 0 -> coherent w ->
  qty w mu = Some x -> qty w rho = Some y -> qty w D = Some z ->
  exists r, schmidt mu rho D = Ok r /\ qty w r = Some (x / (y * z)).
Proof.
  intros p1 p2 p3 k2 k3 z2 z3 hw q1 q2 q3.
  isof mu g1 i1. isof rho g2 i2. isof D g3 i3.
  unfold schmidt, omul, odiv. cbn [bind].
  destruct (is_mul _ _ _ _ i2 i3 (no_loss_l _ _ k2)) as [a [ea ia]]. rewrite ea. cbn [bind].
  assert (za : value a <> 0).
  { apply (is_nz a _ w ia hw). apply Rmult_integral_contrapositive_currified; [apply (nz_is rho _ w i2 hw z2)|apply (nz_is D _ w i3 hw z3)]. }
  destruct (is_div _ _ _ _ i1 ia za (or_intror (kind_multi _ (mul_kind_mm _ _ _ k2 k3 ea)))) as [r [er ir]].
  exists r. split; [exact er|]. destruct ir as [_ ir]. rewrite (ir w hw).
  destruct i1 as [_ i1]. destruct i2 as [_ i2]. destruct i3 as [_ i3].
  rewrite (i1 w hw) in q1. rewrite (i2 w hw) in q2. rewrite (i3 w hw) in q3. congruence.
Qed.

(** ** Consistent units: the result is a plain number *)
Definition f_re := FDiv (FMul (FMul (FVar 0) (FVar 1)) (FVar 2)) (FVar 3).
Definition f_bi := FDiv (FMul (FVar 0) (FVar 1)) (FVar 2).
Definition f_sc := FDiv (FVar 0) (FMul (FVar 1) (FVar 2)).
Lemma re_run a b c d : reynolds a b c d = run [a; b; c; d] f_re. Proof. reflexivity. Qed.
Lemma bi_run a b c : biot a b c = run [a; b; c] f_bi. Proof. reflexivity. Qed.
Lemma pr_run a b c : prandtl a b c = run [a; b; c] f_bi. Proof. reflexivity. Qed.
Lemma sc_run a b c : schmidt a b c = run [a; b; c] f_sc. Proof. reflexivity. Qed.

(** Every list of texts that the test of a sweep can give. *)
Definition re_sys (q : string * string * string * string) : bool :=
  let '(a, b, c, d) := q in
  sys_ok [smulti "Density" a; smulti "Velocity" b; ssimple Length c; smulti "DynamicViscosity" d] f_re is_num.
Lemma re_sweep : forallb re_sys re_texts = true.
Proof. vm_compute. reflexivity. Qed.
Definition bi_sys (q : string * string * string) : bool :=
  let '(a, b, c) := q in
  sys_ok [smulti "HeatTransferCoefficient" a; ssimple Length b; smulti "ThermalConductivity" c] f_bi is_num.
Lemma bi_sweep : forallb bi_sys bi_texts = true.
Proof. vm_compute. reflexivity. Qed.
Definition pr_sys (q : string * string * string) : bool :=
  let '(a, b, c) := q in
  sys_ok [smulti "DynamicViscosity" a; smulti "Cp" b; smulti "ThermalConductivity" c] f_bi is_num.
Lemma pr_sweep : forallb pr_sys pr_texts = true.
Proof. vm_compute. reflexivity. Qed.
Definition sc_sys (q : string * string * string) : bool :=
  let '(a, b, c) := q in
  sys_ok [smulti "DynamicViscosity" a; smulti "Density" b; smulti "DiffusionCoefficient" c] f_sc is_num.
Lemma sc_sweep : forallb sc_sys sc_texts = true.
Proof. vm_compute. reflexivity. Qed.
Lemma in_sweep {A} (f : A -> bool) l a : forallb f l = true -> In a l -> f a = true.
Proof. rewrite forallb_forall. auto. Qed.

Lemma re_units a b c d (x y z u : R) v1 v2 v3 v4 : In (a, b, c, d) re_texts ->
  multi "Density" x a = Ok v1 -> multi "Velocity" y b = Ok v2 -> simple Length z c = Ok v3 -> multi "DynamicViscosity" u d = Ok v4 -> u <> 0 ->
  reynolds v1 v2 v3 v4 = Ok (VNum (x * y * z / u)).
Proof.
  intros hi h1 h2 h3 h4 hn. pose proof (in_sweep _ _ _ re_sweep hi) as hs. unfold re_sys in hs.
  assert (hm : makes_all [smulti "Density" a; smulti "Velocity" b; ssimple Length c; smulti "DynamicViscosity" d] [v1; v2; v3; v4] [x; y; z; u]) by make.
  destruct (sys_sound _ _ _ _ _ hm hs) as [r [e [n [v _]]]]; [cbn; tauto|]. rewrite re_run, e. rewrite (is_num_ok r n), v. reflexivity.
Qed.
Lemma bi_units a b c (x y u : R) v1 v2 v3 : In (a, b, c) bi_texts ->
  multi "HeatTransferCoefficient" x a = Ok v1 -> simple Length y b = Ok v2 -> multi "ThermalConductivity" u c = Ok v3 -> u <> 0 ->
  biot v1 v2 v3 = Ok (VNum (x * y / u)).
Proof.
  intros hi h1 h2 h3 hn. pose proof (in_sweep _ _ _ bi_sweep hi) as hs. unfold bi_sys in hs.
  assert (hm : makes_all [smulti "HeatTransferCoefficient" a; ssimple Length b; smulti "ThermalConductivity" c] [v1; v2; v3] [x; y; u]) by make.
  destruct (sys_sound _ _ _ _ _ hm hs) as [r [e [n [v _]]]]; [cbn; tauto|]. rewrite bi_run, e. rewrite (is_num_ok r n), v. reflexivity.
Qed.
Lemma pr_units a b c (x y u : R) v1 v2 v3 : In (a, b, c) pr_texts ->
  multi "DynamicViscosity" x a = Ok v1 -> multi "Cp" y b = Ok v2 -> multi "ThermalConductivity" u c = Ok v3 -> u <> 0 ->
  prandtl v1 v2 v3 = Ok (VNum (x * y / u)).
Proof.
  intros hi h1 h2 h3 hn. pose proof (in_sweep _ _ _ pr_sweep hi) as hs. unfold pr_sys in hs.
  assert (hm : makes_all [smulti "DynamicViscosity" a; smulti "Cp" b; smulti "ThermalConductivity" c] [v1; v2; v3] [x; y; u]) by make.
  destruct (sys_sound _ _ _ _ _ hm hs) as [r [e [n [v _]]]]; [cbn; tauto|]. rewrite pr_run, e. rewrite (is_num_ok r n), v. reflexivity.
Qed.
Lemma sc_units a b c (x y u : R) v1 v2 v3 : In (a, b, c) sc_texts ->
  multi "DynamicViscosity" x a = Ok v1 -> multi "Density" y b = Ok v2 -> multi "DiffusionCoefficient" u c = Ok v3 -> y <> 0 -> u <> 0 ->
  schmidt v1 v2 v3 = Ok (VNum (x / (y * u))).
Proof.
  intros hi h1 h2 h3 hy hn. pose proof (in_sweep _ _ _ sc_sweep hi) as hs. unfold sc_sys in hs.
  assert (hm : makes_all [smulti "DynamicViscosity" a; smulti "Density" b; smulti "DiffusionCoefficient" c] [v1; v2; v3] [x; y; u]) by make.
  destruct (sys_sound _ _ _ _ _ hm hs) as [r [e [n [v _]]]]; [cbn; repeat split; nzs|]. rewrite sc_run, e. rewrite (is_num_ok r n), v. reflexivity.
Qed.

(** ** Unit independence: numbers computed from the same quantities are equal *)
Lemma num_same (r r' : res val) n n' w q : coherent w -> r = Ok (VNum n) -> r' = Ok (VNum n') ->
  (exists v, r = Ok v /\ qty w v = Some q) -> (exists v, r' = Ok v /\ qty w v = Some q) -> n = n'.
Proof. intros _ -> -> [v [e1 q1]] [v' [e2 q2]]. injection e1 as <-. injection e2 as <-. cbn in *. congruence. Qed.

(** ** Prefixed and mixed lengths *)
Definition q_re := QDiv (QMul (QMul (QVar 0) (QVar 1)) (QVar 2)) (QVar 3).
Definition unr {A} (d : A) (r : res A) : A := match r with Ok x => x | Raise _ => d end.
Lemma re_prefixed : exists v1 v2 v3 v3' v4,
  multi "Density" 1 "kg/m^3" = Ok v1 /\ multi "Velocity" 1 "m/s" = Ok v2 /\ multi "DynamicViscosity" 1 "kg/m*s" = Ok v4 /\
  simple Length 1 "m" = Ok v3 /\ simple Length 100 "cm" = Ok v3' /\
  reynolds v1 v2 v3 v4 = Ok (VNum 1) /\ reynolds v1 v2 v3' v4 = Ok (VNum 100).
Proof.
  pose (a := unr VNone (qmulti "Density" 1 "kg/m^3")). pose (b := unr VNone (qmulti "Velocity" 1 "m/s")). pose (d := unr VNone (qmulti "DynamicViscosity" 1 "kg/m*s")).
  pose (c := unr VNone (qsimple Length 1 "m")). pose (c' := unr VNone (qsimple Length 100 "cm")).
  exists (vmap a), (vmap b), (vmap c), (vmap c'), (vmap d).
  split; [apply (multi_q _ _ 1); [q2|vm_compute; reflexivity]|].
  split; [apply (multi_q _ _ 1); [q2|vm_compute; reflexivity]|].
  split; [apply (multi_q _ _ 1); [q2|vm_compute; reflexivity]|].
  split; [apply (simple_q _ _ 1); [q2|vm_compute; reflexivity]|].
  split; [apply (simple_q _ _ 100); [q2|vm_compute; reflexivity]|].
  rewrite !re_run. split.
  - pose proof (qrun_ok q_re [a; b; c; d] (VNum (1 # 1)%Q) ltac:(vm_compute; reflexivity)) as h.
    cbn [map to_fx q_re] in h. change f_re with (to_fx q_re). cbn [to_fx q_re]. rewrite h. cbn [vmap]. do 2 f_equal. q2.
  - pose proof (qrun_ok q_re [a; b; c'; d] (VNum (100 # 1)%Q) ltac:(vm_compute; reflexivity)) as h.
    cbn [map to_fx q_re] in h. change f_re with (to_fx q_re). cbn [to_fx q_re]. rewrite h. cbn [vmap]. do 2 f_equal. q2.
Qed.
(** A length in feet among metres leaves ft/m on the result. *)
Definition is_multi (s : sval) : bool := match s with VMulti _ => true | _ => false end.
Lemma re_mixed (x y z u : R) v1 v2 v3 v4 : multi "Density" x "kg/m^3" = Ok v1 -> multi "Velocity" y "m/s" = Ok v2 -> simple Length z "ft" = Ok v3 -> multi "DynamicViscosity" u "kg/m*s" = Ok v4 -> u <> 0 ->
  exists m, reynolds v1 v2 v3 v4 = Ok (VMulti m) /\ mv m = x * y * z / u.
Proof.
  intros h1 h2 h3 h4 hn.
  assert (hm : makes_all [smulti "Density" "kg/m^3"; smulti "Velocity" "m/s"; ssimple Length "ft"; smulti "DynamicViscosity" "kg/m*s"] [v1; v2; v3; v4] [x; y; z; u]) by make.
  destruct (sys_sound _ _ _ f_re is_multi hm) as [r [e [n [v _]]]]; [vm_compute; reflexivity|cbn; tauto|].
  rewrite re_run, e. destruct r; try discriminate n. exists m. split; [reflexivity|exact v].
Qed.
(** A viscosity in N*s/m^2 is consistent with the rest, but newtons are not
    taken apart: the result keeps kg*m / N*s^2. *)
Lemma re_newton (x y z u : R) v1 v2 v3 v4 : multi "Density" x "kg/m^3" = Ok v1 -> multi "Velocity" y "m/s" = Ok v2 -> simple Length z "m" = Ok v3 -> multi "DynamicViscosity" u "N*s/m^2" = Ok v4 -> u <> 0 ->
  exists m, reynolds v1 v2 v3 v4 = Ok (VMulti m) /\ mv m = x * y * z / u.
Proof.
  intros h1 h2 h3 h4 hn.
  assert (hm : makes_all [smulti "Density" "kg/m^3"; smulti "Velocity" "m/s"; ssimple Length "m"; smulti "DynamicViscosity" "N*s/m^2"] [v1; v2; v3; v4] [x; y; z; u]) by make.
  destruct (sys_sound _ _ _ f_re is_multi hm) as [r [e [n [v _]]]]; [vm_compute; reflexivity|cbn; tauto|].
  rewrite re_run, e. destruct r; try discriminate n. exists m. split; [reflexivity|exact v].
Qed.
