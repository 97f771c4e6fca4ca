(** * PrefixedFacts: the dimensionless groups and the planar heat flow with prefixed units *)
From Coq Require Import String Ascii List ZArith QArith Qcanon Bool Reals Qreals Lia Lra.
From Verif Require Import Py Num UnitsData UnitsStruct Units NumFacts Spec SpecFacts StructFacts
  OpFacts NamesFacts ClosureFacts FactorFacts LawFacts WitnessFacts OpPropFacts OpExactFacts Expr ExprFacts ExprSpec ExprExact Solve Formulas FormulaSpec SemFacts SymFacts SweepFacts SimFacts ConductionFacts DimlessFacts.
Import ListNotations.
Local Open Scope string_scope.
Local Open Scope list_scope.
Local Open Scope R_scope.

Lemma unp_pscale n : unprefixed n -> pscale n = 1.
Proof.
  intros [[c ->]|[[c [r [-> h]]]|h]]; [reflexivity| |].
  - destruct r as [|d r]; [reflexivity|]. unfold pscale. destruct (in_dec string_dec _ _); [reflexivity|].
    assert (k : forall x, In x prefix_letters -> Ascii.eqb c x = false) by (intros x i; apply Ascii.eqb_neq; intros ->; exact (h i)).
    rewrite !k by (cbn; tauto). reflexivity.
  - unfold pscale. destruct n as [|c [|d r]]; try reflexivity. destruct (in_dec string_dec _ _); [reflexivity|contradiction].
Qed.
Lemma usize_one w l : (forall x, In x l -> w (bname x) = 1) -> usize w l = 1.
Proof.
  induction l as [|x l IH]; intro h; [reflexivity|]. cbn [usize]. rewrite IH by (intros; apply h; right; assumption). rewrite (h x (or_introl eq_refl)). unfold Rpower. rewrite ln_1, Rmult_0_r, exp_0. ring.
Qed.
Lemma unp_mscale m : unp_multi m -> mscale m = 1.
Proof. intros [h1 h2]. unfold mscale, msize. rewrite !usize_one by (intros; apply unp_pscale; auto). field. Qed.
Lemma mul_mm_unp a b r : adm_multi a -> adm_multi b -> py_mul (VMulti a) (VMulti b) = Ok r -> exists m, r = VMulti m /\ mscale m = 1.
Proof.
  intros [ha1 ha2] [hb1 hb2] h. cbn [py_mul multi_mul] in h. apply bind_ok in h. destruct h as [[[t b'] f] [e h]]. injection h as <-.
  eexists. split; [reflexivity|]. apply unp_mscale. apply reduce_unprefixed_names in e; [exact e|apply adm_app; auto|apply adm_app; auto].
Qed.
Lemma unit_prefix_pos v : 0 < unit_prefix v. Proof. destruct v; cbn; try lra. apply exp_pos. Qed.
Lemma pair_prefix_pos a b : 0 < pair_prefix a b.
Proof. destruct a, b; cbn; try lra. apply Rmult_lt_0_compat; [apply msize_pos; exact pscale_pos|apply exp_pos]. Qed.
Lemma kmulti v : kind v = KMulti -> exists m, v = VMulti m. Proof. destruct v; cbn; try discriminate. eauto. Qed.

Lemma reynolds_actual rho v L mu w x y z u p n : good rho -> good v -> good L -> good mu ->
  kind rho = KMulti -> kind v = KMulti -> kind mu = KMulti -> value mu <> 0 -> coherent w ->
  py_mul rho v = Ok p -> py_mul p L = Ok n ->
  qty w rho = Some x -> qty w v = Some y -> qty w L = Some z -> qty w mu = Some u ->
  exists r, reynolds rho v L mu = Ok r /\ qty w r = Some (x * y * z / u / (unit_prefix L * lost_div n mu)) /\
    (qty w r = Some (x * y * z / u) <-> x * y * z / u = 0 \/ unit_prefix L * lost_div n mu = 1).
Proof.
  intros gr gv gL gm kr kv km nz hw hp hn qx qy qz qu. destruct (kmulti _ kr) as [a ->]. destruct (kmulti _ kv) as [b ->]. destruct (kmulti _ km) as [m ->].
  destruct (mul_mm_unp a b p gr gv hp) as [pm [-> sp]]. pose proof (good_mul _ _ _ gr gv hp) as gp. pose proof (good_mul _ _ _ gp gL hn) as gn.
  destruct (proj1 (proj2 (div_total n (VMulti m) gn gm)) nz) as [r e]; [right; discriminate|]. exists r. split; [unfold reynolds, odiv, omul; cbn [bind]; rewrite hp; cbn [bind]; rewrite hn; exact e|].
  pose proof (mul_gives w _ _ _ _ _ hw gr gv qx qy hp) as q1. pose proof (mul_gives w _ _ _ _ _ hw gp gL q1 qz hn) as q2.
  assert (nu : u <> 0) by (intro k; apply nz; apply (qty_zero w _ u (co_pos _ hw) gm qu); exact k).
  pose proof (div_gives w _ _ _ _ _ hw gn gm q2 qu nu e) as q3.
  assert (el : lost_mul w (VMulti pm) L = unit_prefix L) by (destruct L; cbn; try reflexivity; rewrite sp; ring).
  rewrite el in q3. cbn [lost_mul] in q3. pose proof (unit_prefix_pos L) as pp. pose proof (lost_div_pos n (VMulti m)) as pd.
  replace (x * y / 1 * z / unit_prefix L / u / lost_div n (VMulti m)) with (x * y * z / u / (unit_prefix L * lost_div n (VMulti m))) in q3 by (field; repeat split; lra). split; [exact q3|]. rewrite q3. apply right_iff. apply Rmult_lt_0_compat; assumption.
Qed.
Lemma biot_actual h L k w x y z n : good h -> good L -> good k -> kind h = KMulti -> kind k = KMulti -> value k <> 0 -> coherent w ->
  py_mul h L = Ok n -> qty w h = Some x -> qty w L = Some y -> qty w k = Some z ->
  exists r, biot h L k = Ok r /\ qty w r = Some (x * y / z / (pair_prefix h L * lost_div n k)) /\ (qty w r = Some (x * y / z) <-> x * y / z = 0 \/ pair_prefix h L * lost_div n k = 1).
Proof.
  intros gh gL gk kh kk nz hw hn qx qy qz. destruct (kmulti _ kh) as [a ->]. destruct (kmulti _ kk) as [m ->]. pose proof (good_mul _ _ _ gh gL hn) as gn.
  destruct (proj1 (proj2 (div_total n (VMulti m) gn gk)) nz) as [r e]; [right; discriminate|]. exists r. split; [unfold biot, odiv, omul; cbn [bind]; rewrite hn; exact e|].
  pose proof (mul_gives w _ _ _ _ _ hw gh gL qx qy hn) as q2.
  assert (nu : z <> 0) by (intro k; apply nz; apply (qty_zero w _ z (co_pos _ hw) gk qz); exact k).
  pose proof (div_gives w _ _ _ _ _ hw gn gk q2 qz nu e) as q3.
  assert (el : lost_mul w (VMulti a) L = pair_prefix (VMulti a) L) by (destruct L; reflexivity).
  rewrite el in q3. pose proof (pair_prefix_pos (VMulti a) L) as pp. pose proof (lost_div_pos n (VMulti m)) as pd.
  replace (x * y / pair_prefix (VMulti a) L / z / lost_div n (VMulti m)) with (x * y / z / (pair_prefix (VMulti a) L * lost_div n (VMulti m))) in q3 by (field; repeat split; lra). split; [exact q3|]. rewrite q3. apply right_iff. apply Rmult_lt_0_compat; assumption.
Qed.
Lemma prandtl_actual mu cp k w x y z : good mu -> good cp -> good k -> kind mu = KMulti -> kind cp = KMulti -> kind k = KMulti -> value k <> 0 -> coherent w ->
  qty w mu = Some x -> qty w cp = Some y -> qty w k = Some z -> exists r, prandtl mu cp k = Ok r /\ qty w r = Some (x * y / z).
Proof.
  intros gh gL gk kh kL kk nz hw qx qy qz. destruct (kmulti _ kh) as [a ->]. destruct (kmulti _ kL) as [b ->]. destruct (kmulti _ kk) as [m ->].
  destruct (mul_total _ _ gh gL) as [n hn]. destruct (mul_mm_unp a b n gh gL hn) as [pm [-> sp]]. pose proof (good_mul _ _ _ gh gL hn) as gn.
  destruct (proj1 (proj2 (div_total (VMulti pm) (VMulti m) gn gk)) nz) as [r e]; [right; discriminate|]. exists r. split; [unfold prandtl, odiv, omul; cbn [bind]; rewrite hn; exact e|].
  pose proof (mul_gives w _ _ _ _ _ hw gh gL qx qy hn) as q2.
  assert (nu : z <> 0) by (intro k; apply nz; apply (qty_zero w _ z (co_pos _ hw) gk qz); exact k).
  pose proof (div_gives w _ _ _ _ _ hw gn gk q2 qz nu e) as q3. cbn [lost_mul lost_div] in q3. rewrite q3. f_equal. field. exact nu.
Qed.
Lemma schmidt_actual mu rho D w x y z : good mu -> good rho -> good D -> kind rho = KMulti -> kind D = KMulti -> value rho <> 0 -> value D <> 0 -> coherent w ->
  qty w mu = Some x -> qty w rho = Some y -> qty w D = Some z ->
  exists r, schmidt mu rho D = Ok r /\ qty w r = Some (x / (y * z) / unit_prefix mu) /\ (qty w r = Some (x / (y * z)) <-> x / (y * z) = 0 \/ unit_prefix mu = 1).
Proof.
  intros gm gr gD kr kD nr nD hw qx qy qz. destruct (kmulti _ kr) as [a ->]. destruct (kmulti _ kD) as [b ->].
  destruct (mul_total _ _ gr gD) as [n hn]. destruct (mul_mm_unp a b n gr gD hn) as [pm [-> sp]]. pose proof (good_mul _ _ _ gr gD hn) as gn.
  pose proof (mul_gives w _ _ _ _ _ hw gr gD qy qz hn) as q2. cbn [lost_mul] in q2.
  assert (ny : y <> 0) by (intro k; apply nr; apply (qty_zero w _ y (co_pos _ hw) gr qy); exact k).
  assert (nzz : z <> 0) by (intro k; apply nD; apply (qty_zero w _ z (co_pos _ hw) gD qz); exact k).
  assert (nu : y * z / 1 <> 0) by (unfold Rdiv; rewrite Rinv_1, Rmult_1_r; apply Rmult_integral_contrapositive_currified; assumption).
  assert (nv : value (VMulti pm) <> 0) by (intro k; apply nu; apply (qty_zero w _ _ (co_pos _ hw) gn q2); exact k).
  destruct (proj1 (proj2 (div_total mu (VMulti pm) gm gn)) nv) as [r e]; [right; discriminate|]. exists r. split; [unfold schmidt, odiv, omul; cbn [bind]; rewrite hn; exact e|].
  pose proof (div_gives w _ _ _ _ _ hw gm gn qx q2 nu e) as q3. pose proof (unit_prefix_pos mu) as pp.
  assert (el : lost_div mu (VMulti pm) = unit_prefix mu) by (destruct mu; cbn; try reflexivity; rewrite sp; field).
  rewrite el in q3. replace (x / (y * z / 1) / unit_prefix mu) with (x / (y * z) / unit_prefix mu) in q3 by (field; repeat split; lra). split; [exact q3|]. rewrite q3. apply right_iff. exact pp.
Qed.

(** ** The planar heat flow *)
Lemma heat_actual a (t1 t2 dd : unit_obj R) A q w x y1 y2 z d ka : good (VMulti a) -> good (VUnit t1) -> good (VUnit t2) -> good A -> good (VUnit dd) ->
  un t2 <> un dd -> uv dd <> 0 ->
  py_mul (VMulti (MO (mc a) (- mv a) (mtop a) (mbot a))) A = Ok ka -> kind ka <> KUnit ->
  planar_heat [AVal (VMulti a); AVal (VUnit t1); AVal (VUnit t2); AVal A; AVal (VUnit dd)] [] = Ok q ->
  coherent w -> qty w (VMulti a) = Some x -> qty w A = Some z -> qty w (VUnit t1) = Some y1 -> qty w (VUnit t2) = Some y2 -> qty w (VUnit dd) = Some d ->
  qty w q = Some (- (x * z * (y2 - y1) / d) / pair_prefix (VMulti a) A) /\
  (qty w q = Some (- (x * z * (y2 - y1) / d)) <-> - (x * z * (y2 - y1) / d) = 0 \/ pair_prefix (VMulti a) A = 1).
Proof.
  intros ga g1 g2 gA gd hn nd hka kk h hw qx qz q1 q2 qd. rewrite ph_q_run in h. cbn [run ph_q var nth_error] in h.
  unfold omul, odiv, osub, oneg in h. cbn [bind py_neg] in h. unfold multi_neg in h. cbn [nopp Rnum] in h. rewrite hka in h. cbn [bind] in h.
  set (a' := MO (mc a) (- mv a) (mtop a) (mbot a)) in *. assert (ga' : good (VMulti a')) by exact ga.
  assert (qx' : qty w (VMulti a') = Some (- x)) by (cbn in *; injection qx as <-; f_equal; ring).
  apply bind_ok in h. destruct h as [g [hg h]]. apply bind_ok in hg. destruct hg as [dt [hdt hg]].
  pose proof (proj2 (addsub_gives w _ _ _ _ dt hw g2 g1 q2 q1) hdt) as qdt. cbn [added] in qdt.
  pose proof (good_addsub _ _ _ g2 g1 (or_intror hdt)) as gdt.
  assert (nd' : d <> 0) by (intro k; apply nd; apply (qty_zero w _ d (co_pos _ hw) gd qd); exact k).
  pose proof (div_gives w _ _ _ _ _ hw gdt gd qdt qd nd' hg) as qg. pose proof (good_div _ _ _ gdt gd hg) as gg.
  assert (sdt : exists u, dt = VUnit u /\ un u = un t2).
  { cbn [py_sub] in hdt. unfold unit_addsub in hdt. destruct (ucls_sub (uc t1) (uc t2)); [|discriminate hdt]. destruct (String.eqb (un t2) (un t1) && eeqb (ue t2) (ue t1)); [|discriminate hdt].
    unfold vunit in hdt. rewrite (rebuild t2 _ _ (proj2 g2)) in hdt. eexists. split; [injection hdt as <-; reflexivity|reflexivity]. }
  destruct sdt as [u [-> eu]]. assert (kg : kind g = KMulti) by (apply (div_kind_uu u dd); [congruence|exact hg]). cbn [lost_div] in qg.
  pose proof (good_mul _ _ _ ga' gA hka) as gka. pose proof (mul_gives w _ _ _ _ _ hw ga' gA qx' qz hka) as qka.
  assert (el : lost_mul w (VMulti a') A = pair_prefix (VMulti a) A) by (destruct A; reflexivity). rewrite el in qka.
  pose proof (mul_gives w _ _ _ _ _ hw gka gg qka qg h) as qq. destruct (kmulti _ kg) as [mg ->].
  assert (e1 : lost_mul w ka (VMulti mg) = 1) by (clear - kk; destruct ka; try reflexivity; exfalso; apply kk; reflexivity). rewrite e1 in qq. pose proof (pair_prefix_pos (VMulti a) A) as pp.
  replace (- x * z / pair_prefix (VMulti a) A * ((y2 + - y1) / d / 1) / 1) with (- (x * z * (y2 - y1) / d) / pair_prefix (VMulti a) A) in qq by (field; split; lra).
  split; [exact qq|]. rewrite qq. apply right_iff. exact pp.
Qed.

(** ** Prefixed arguments *)
Lemma reynolds_case : exists rho v L mu p n,
  multi "Density" 1 "g/cm^3" = Ok rho /\ multi "Velocity" 1 "m/s" = Ok v /\ simple Length 100 "cm" = Ok L /\ multi "DynamicViscosity" 1 "g/mm*s" = Ok mu /\
  good rho /\ good v /\ good L /\ good mu /\ value mu <> 0 /\ py_mul rho v = Ok p /\ py_mul p L = Ok n /\ kind n = KUnit /\ unit_prefix L = / 100 /\ lost_div n mu = / 1000.
Proof.
  pose (a := unr VNone (qmulti "Density" 1 "g/cm^3")). pose (b := unr VNone (qmulti "Velocity" 1 "m/s")). pose (d := unr VNone (qmulti "DynamicViscosity" 1 "g/mm*s")).
  pose (c := unr VNone (qsimple Length 100 "cm")).
  pose (p := unr VNone (qrun [a; b] (QMul (QVar 0) (QVar 1)))). pose (n := unr VNone (qrun [p; c] (QMul (QVar 0) (QVar 1)))).
  exists (vmap a), (vmap b), (vmap c), (vmap d), (vmap p), (vmap n).
  split; [apply (multi_q _ _ 1); [q2|vm_compute; reflexivity]|].
  split; [apply (multi_q _ _ 1); [q2|vm_compute; reflexivity]|].
  split; [apply (simple_q _ _ 100); [q2|vm_compute; reflexivity]|].
  split; [apply (multi_q _ _ 1); [q2|vm_compute; reflexivity]|].
  split; [split; adm|]. split; [split; adm|]. split; [split; [adm1|apply built_simple; [reflexivity|exact I]]|]. split; [split; adm|].
  split; [vm_compute; lra|].
  split; [exact (qrun_ok (QMul (QVar 0) (QVar 1)) [a; b] p ltac:(vm_compute; reflexivity))|].
  split; [exact (qrun_ok (QMul (QVar 0) (QVar 1)) [p; c] n ltac:(vm_compute; reflexivity))|].
  split; [vm_compute; reflexivity|]. split.
  - change (unit_prefix (vmap c)) with (Rpower (pscale "cm") (QcR (ev (eint 1)))). rewrite (QcR1 (eint 1)) by reflexivity. rewrite Rpower1 by apply pscale_pos. exact pscale_cm.
  - assert (en : exists u, vmap n = VUnit u /\ un u = "cP" /\ ev (ue u) = qc 1) by (vm_compute; eexists; split; [reflexivity|split; [reflexivity|apply Qc_is_canon; reflexivity]]).
    destruct en as [u [-> [nu vu]]].
    assert (ed : exists m, vmap d = VMulti m /\ map bname (mtop m) = ["g"]  /\ map bname (mbot m) = ["mm"; "s"] /\ forall x, In x (mtop m ++ mbot m) -> ev (bexp x) = qc 1).
    { eexists. split; [reflexivity|]. split; [reflexivity|]. split; [reflexivity|]. intros x i. vm_compute in i. repeat (destruct i as [<-|i]; [apply Qc_is_canon; reflexivity|]). destruct i. }
    destruct ed as [m [-> [t [b' l]]]]. cbn [lost_div]. unfold uscale, mscale, msize. rewrite nu, vu.
    destruct (mtop m) as [|x1 [|? ?]]; try discriminate t. destruct (mbot m) as [|x2 [|x3 [|? ?]]]; try discriminate b'. cbn [map] in t, b'. injection t as t1. injection b' as t2 t3.
    cbn [usize]. rewrite t1, t2, t3. rewrite !l by (cbn; tauto). rewrite !QcR_qc, !Rpower_1 by apply pscale_pos. change (pscale "g") with 1. change (pscale "s") with 1. rewrite pscale_mm, pscale_cP. field.
Qed.
Lemma groups_case : exists h L k mu cp rho D n,
  multi "HeatTransferCoefficient" 1 "kW/m^2*K" = Ok h /\ simple Length 1 "cm" = Ok L /\ multi "ThermalConductivity" 1 "W/cm*K" = Ok k /\
  multi "DynamicViscosity" 1 "g/cm*s" = Ok mu /\ multi "Cp" 1 "kJ/kg*K" = Ok cp /\ multi "Density" 1 "g/cm^3" = Ok rho /\ multi "DiffusionCoefficient" 1 "cm^2/s" = Ok D /\
  good h /\ good L /\ good k /\ good mu /\ good cp /\ good rho /\ good D /\ value k <> 0 /\ value rho <> 0 /\ value D <> 0 /\ py_mul h L = Ok n.
Proof.
  pose (h := unr VNone (qmulti "HeatTransferCoefficient" 1 "kW/m^2*K")). pose (L := unr VNone (qsimple Length 1 "cm")). pose (k := unr VNone (qmulti "ThermalConductivity" 1 "W/cm*K")).
  pose (mu := unr VNone (qmulti "DynamicViscosity" 1 "g/cm*s")). pose (cp := unr VNone (qmulti "Cp" 1 "kJ/kg*K")). pose (rho := unr VNone (qmulti "Density" 1 "g/cm^3")). pose (D := unr VNone (qmulti "DiffusionCoefficient" 1 "cm^2/s")).
  pose (n := unr VNone (qrun [h; L] (QMul (QVar 0) (QVar 1)))).
  exists (vmap h), (vmap L), (vmap k), (vmap mu), (vmap cp), (vmap rho), (vmap D), (vmap n).
  split; [apply (multi_q _ _ 1); [q2|vm_compute; reflexivity]|]. split; [apply (simple_q _ _ 1); [q2|vm_compute; reflexivity]|].
  do 5 (split; [apply (multi_q _ _ 1); [q2|vm_compute; reflexivity]|]).
  split; [split; adm|]. split; [split; [adm1|apply built_simple; [reflexivity|exact I]]|]. do 5 (split; [split; adm|]).
  do 3 (split; [vm_compute; lra|]). exact (qrun_ok (QMul (QVar 0) (QVar 1)) [h; L] n ltac:(vm_compute; reflexivity)).
Qed.
Lemma heat_case : exists a t1 t2 A d ka q,
  multi "ThermalConductivity" 1 "W/cm*K" = Ok (VMulti a) /\ simple Temperature 300 "K" = Ok (VUnit t1) /\ simple Temperature 310 "K" = Ok (VUnit t2) /\
  simple Area 1 "m^2" = Ok A /\ simple Length 1 "cm" = Ok (VUnit d) /\ good (VMulti a) /\ good (VUnit t1) /\ good (VUnit t2) /\ good A /\ good (VUnit d) /\
  un t2 <> un d /\ uv d <> 0 /\ py_mul (VMulti (MO (mc a) (- mv a) (mtop a) (mbot a))) A = Ok ka /\ kind ka = KMulti /\
  planar_heat [AVal (VMulti a); AVal (VUnit t1); AVal (VUnit t2); AVal A; AVal (VUnit d)] [] = Ok q.
Proof.
  pose (a := unr VNone (qmulti "ThermalConductivity" 1 "W/cm*K")). pose (t1 := unr VNone (qsimple Temperature 300 "K")). pose (t2 := unr VNone (qsimple Temperature 310 "K")).
  pose (A := unr VNone (qsimple Area 1 "m^2")). pose (d := unr VNone (qsimple Length 1 "cm")).
  pose (ka := unr VNone (qrun [a; A] (QMul (QNeg (QVar 0)) (QVar 1)))). pose (q := unr VNone (qrun [a; t1; t2; A; d] q_ph_q)).
  assert (ea : exists a', a = VMulti a') by (eexists; reflexivity). destruct ea as [a' ea].
  assert (e1 : exists u, t1 = VUnit u) by (eexists; reflexivity). destruct e1 as [u1 e1].
  assert (e2 : exists u, t2 = VUnit u) by (eexists; reflexivity). destruct e2 as [u2 e2].
  assert (ed : exists u, d = VUnit u) by (eexists; reflexivity). destruct ed as [ud ed].
  exists (mmap a'), (umap u1), (umap u2), (vmap A), (umap ud), (vmap ka), (vmap q).
  change (VMulti (mmap a')) with (vmap (VMulti a')). change (VUnit (umap u1)) with (vmap (VUnit u1)). change (VUnit (umap u2)) with (vmap (VUnit u2)). change (VUnit (umap ud)) with (vmap (VUnit ud)).
  rewrite <- ea, <- e1, <- e2, <- ed.
  split; [apply (multi_q _ _ 1); [q2|vm_compute; reflexivity]|]. split; [apply (simple_q _ _ 300); [q2|vm_compute; reflexivity]|].
  split; [apply (simple_q _ _ 310); [q2|vm_compute; reflexivity]|]. split; [apply (simple_q _ _ 1); [q2|vm_compute; reflexivity]|]. split; [apply (simple_q _ _ 1); [q2|vm_compute; reflexivity]|].
  split; [split; adm|]. split; [split; [adm1|apply built_simple; [reflexivity|exact I]]|]. split; [split; [adm1|apply built_simple; [reflexivity|exact I]]|].
  split; [split; [adm1|apply built_simple; [reflexivity|exact I]]|]. split; [split; [adm1|apply built_simple; [reflexivity|exact I]]|].
  assert (nn : un u2 = "K") by (unfold t2 in e2; vm_compute in e2; injection e2 as <-; reflexivity). assert (nd : un ud = "cm" /\ uv ud = 1%Q) by (unfold d in ed; vm_compute in ed; injection ed as <-; split; reflexivity).
  split; [cbn [umap un]; rewrite nn, (proj1 nd); discriminate|]. split; [cbn [umap uv]; rewrite (proj2 nd); unfold Q2R; cbn; lra|].
  split; [pose proof (qrun_ok (QMul (QNeg (QVar 0)) (QVar 1)) [a; A] ka ltac:(vm_compute; reflexivity)) as h; rewrite ea in h; exact h|].
  split; [vm_compute; reflexivity|]. rewrite ph_q_run. exact (qrun_ok q_ph_q [a; t1; t2; A; d] q ltac:(vm_compute; reflexivity)).
Qed.
