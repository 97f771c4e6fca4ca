(** * SumCases: the error bound in plain terms, for the library's walls, and where no relative bound holds *)
From Coq Require Import String Ascii List ZArith QArith Qcanon Bool Reals Qreals Lia Lra.
From Verif Require Import Py Num NumFacts UnitsData UnitsStruct Units Expr Solve Formulas Rounding RoundSpec RoundFacts RoundErr RoundCases SumSpec SumErr.
Import ListNotations.
Local Open Scope string_scope.
Local Open Scope list_scope.
Local Open Scope R_scope.

Section Bound.
Variable u : R.
Hypothesis hu : 0 <= u < 1.
Lemma off_bound n z x y : INR n * u <= / 100 -> 0 <= z -> off u n z x y -> Rabs (y - x) <= 1.02 * INR n * u * z.
Proof.
  intros h hz k. unfold off in k. apply Rle_trans with (1 := k). apply Rmult_le_compat_r; [exact hz|].
  pose proof (bernoulli u hu n) as b. pose proof (base_pos u hu n) as p.
  set (t := INR n * u) in *. assert (t0 : 0 <= t) by (apply Rmult_le_pos; [apply pos_INR|lra]).
  replace (1.02 * INR n * u) with (1.02 * t) by (unfold t; ring).
  assert (f3 : / (1 - u) ^ n <= / (1 - t)) by (apply Rinv_le_contravar; lra).
  assert (f4 : / (1 - t) <= 1 + 1.02 * t).
  { apply (Rmult_le_reg_r (1 - t)); [lra|]. rewrite Rinv_l by lra. nra. }
  lra.
Qed.
End Bound.

(** ** Cancellation: 1 + v - 1 for a v that the sum loses *)
Definition forgetful (v : R) : arith := {|
  a_add := fun x y => if Reqb x 1 && Reqb y v then 1 else x + y;
  a_sub := Rminus; a_mul := Rmult; a_div := Rdiv; a_lit := Q2R; a_pow := Rpowq |}.
Lemma near1_refl u x : 0 <= u -> near1 u x x.
Proof. intro h. unfold near1. replace (x - x) with 0 by ring. rewrite Rabs_R0. apply Rmult_le_pos; [exact h|apply Rabs_pos]. Qed.
Lemma forgetful_accurate u : 0 < u < 1 -> accurate u (forgetful u).
Proof.
  intro h. assert (p : 0 <= u) by lra. unfold accurate. cbn [a_add a_sub a_mul a_div a_lit a_pow forgetful].
  split; [|split; [intros; apply near1_refl, p|split; [intros; apply near1_refl, p|split; [intros; apply near1_refl, p|split; [intros; apply near1_refl, p|split]]]]].
  - intros x y. destruct (Reqb x 1) eqn:e; [|apply near1_refl, p]. destruct (Reqb y u) eqn:e'; [|apply near1_refl, p].
    apply Reqb_true in e, e'. subst. cbn [andb]. unfold near1. replace (1 - (1 + u)) with (- u) by ring. rewrite Rabs_Ropp, !Rabs_pos_eq by lra. nra.
  - intros z _. unfold Q2R. cbn. field.
  - intros x q. destruct (Rpowq x q) as [v|er]; [|reflexivity]. exists v. split; [reflexivity|apply near1_refl, p].
Qed.
Definition cancelling (v : R) : expr := ESub (EAdd (ELeaf (VNum 1)) (ELeaf (VNum v))) (ELeaf (VNum 1)).
Lemma no_relative_bound u : 0 < u < 1 -> exists a e, accurate u a /\ tame e /\
  forall n, ~ same_outcome (within u n) (eval e) (feval a e).
Proof.
  intro h. exists (forgetful u), (cancelling u). split; [apply forgetful_accurate, h|]. split; [cbn; tauto|]. intros n k.
  unfold feval, cancelling in k. cbn in k.
  rewrite (proj2 (Reqb_true 1 1) eq_refl), (proj2 (Reqb_true u u) eq_refl) in k. cbn [andb] in k.
  apply (within_eq u) in k; [|lra]. destruct k as (k & _). assert (1 + u - 1 = 0) by (apply k; ring). lra.
Qed.

(** ** The library's functions are such expressions *)
Lemma heat_runs k T1 T2 A d q :
  planar_heat [AVal k; AVal T1; AVal T2; AVal A; AVal d] [] = eval (heat_expr k T1 T2 A d) /\
  planar_heat [AVal k; AVal T1; AVal T2; AVal A; ANone; AVal q] [] = eval (heat_d_expr k T1 T2 A q) /\
  planar_heat [AVal k; AVal T1; ANone; AVal A; AVal d; AVal q] [] = eval (heat_T2_expr k T1 A d q) /\
  planar_heat [AVal k; ANone; AVal T2; AVal A; AVal d; AVal q] [] = eval (heat_T1_expr k T2 A d q).
Proof. repeat split. Qed.
Lemma flux_runs k T1 T2 d q :
  planar_flux [AVal k; AVal T1; AVal T2; AVal d] [] = eval (flux_expr k T1 T2 d) /\
  planar_flux [AVal k; AVal T1; AVal T2; ANone; AVal q] [] = eval (flux_d_expr k T1 T2 q) /\
  planar_flux [AVal k; AVal T1; ANone; AVal d; AVal q] [] = eval (flux_T2_expr k T1 d q) /\
  planar_flux [AVal k; ANone; AVal T2; AVal d; AVal q] [] = eval (flux_T1_expr k T2 d q).
Proof. repeat split. Qed.
Lemma group_runs :
  (forall rho v L mu, reynolds rho v L mu = eval (reynolds_expr rho v L mu)) /\
  (forall h L k, biot h L k = eval (over_expr h L k)) /\
  (forall mu cp k, prandtl mu cp k = eval (over_expr mu cp k)) /\
  (forall mu rho D, schmidt mu rho D = eval (schmidt_expr mu rho D)) /\
  (forall diameter length cp l rho v k, gretz diameter length cp l rho v k = eval (gretz_expr diameter length cp l rho v k)).
Proof. repeat split. Qed.
Lemma grashof_runs g beta T2 T1 L rho mu : grashof g beta T2 T1 L rho mu = eval (grashof_expr g beta T2 T1 L rho mu).
Proof. reflexivity. Qed.
Lemma mass_runs D A C2 C1 t : planar_mass_transfer D A C2 C1 t = eval (heat_expr D C1 C2 A t) /\ planar_mass_flux D C2 C1 t = eval (flux_expr D C1 C2 t).
Proof. split; reflexivity. Qed.

Section Library.
Variable u : R.
Hypothesis hu : 0 <= u < 1.
Variable a : arith.
Hypothesis ha : accurate u a.
Lemma heat_bounded k T1 T2 A d q :
  bounded u a (planar_heat [AVal k; AVal T1; AVal T2; AVal A; AVal d] []) (heat_expr k T1 T2 A d) /\
  bounded u a (planar_heat [AVal k; AVal T1; AVal T2; AVal A; ANone; AVal q] []) (heat_d_expr k T1 T2 A q) /\
  bounded u a (planar_heat [AVal k; AVal T1; ANone; AVal A; AVal d; AVal q] []) (heat_T2_expr k T1 A d q) /\
  bounded u a (planar_heat [AVal k; ANone; AVal T2; AVal A; AVal d; AVal q] []) (heat_T1_expr k T2 A d q).
Proof.
  destruct (heat_runs k T1 T2 A d q) as (-> & -> & -> & ->).
  repeat split; apply (rounded_any u hu a ha); cbn; unfold firm; cbn; tauto.
Qed.
Lemma flux_bounded k T1 T2 d q :
  bounded u a (planar_flux [AVal k; AVal T1; AVal T2; AVal d] []) (flux_expr k T1 T2 d) /\
  bounded u a (planar_flux [AVal k; AVal T1; AVal T2; ANone; AVal q] []) (flux_d_expr k T1 T2 q) /\
  bounded u a (planar_flux [AVal k; AVal T1; ANone; AVal d; AVal q] []) (flux_T2_expr k T1 d q) /\
  bounded u a (planar_flux [AVal k; ANone; AVal T2; AVal d; AVal q] []) (flux_T1_expr k T2 d q).
Proof.
  destruct (flux_runs k T1 T2 d q) as (-> & -> & -> & ->).
  repeat split; apply (rounded_any u hu a ha); cbn; unfold firm; cbn; tauto.
Qed.
Lemma mass_bounded D A C2 C1 t :
  bounded u a (planar_mass_transfer D A C2 C1 t) (heat_expr D C1 C2 A t) /\ bounded u a (planar_mass_flux D C2 C1 t) (flux_expr D C1 C2 t).
Proof.
  destruct (mass_runs D A C2 C1 t) as (-> & ->).
  repeat split; apply (rounded_any u hu a ha); cbn; unfold firm; cbn; tauto.
Qed.
Lemma grashof_bounded g beta T2 T1 L rho mu : bounded u a (grashof g beta T2 T1 L rho mu) (grashof_expr g beta T2 T1 L rho mu).
Proof. rewrite grashof_runs. apply (rounded_any u hu a ha). cbn. unfold firm. cbn. tauto. Qed.
Lemma groups_sharp :
  (forall rho v L mu, sharp u a (reynolds rho v L mu) (reynolds_expr rho v L mu)) /\
  (forall h L k, sharp u a (biot h L k) (over_expr h L k)) /\
  (forall mu cp k, sharp u a (prandtl mu cp k) (over_expr mu cp k)) /\
  (forall mu rho D, sharp u a (schmidt mu rho D) (schmidt_expr mu rho D)) /\
  (forall diameter length cp l rho v k, sharp u a (gretz diameter length cp l rho v k) (gretz_expr diameter length cp l rho v k)).
Proof.
  destruct group_runs as (h1 & h2 & h3 & h4 & h5).
  split; [intros; rewrite h1|split; [intros; rewrite h2|split; [intros; rewrite h3|split; [intros; rewrite h4|intros; rewrite h5]]]];
    apply (rounded_products u a hu ha); cbn; tauto.
Qed.
End Library.

(** A wall in plain numbers: four roundings of k A (|T2| + |T1|) / d; and one in
    units, where every factor is rounded too. *)
Lemma heat_numbers k T1 T2 A d : 0 < k -> 0 < A -> 0 < d ->
  roundings (heat_expr (VNum k) (VNum T1) (VNum T2) (VNum A) (VNum d)) = 4%nat /\
  bulk (heat_expr (VNum k) (VNum T1) (VNum T2) (VNum A) (VNum d)) = k * A * ((Rabs T2 + Rabs T1) / d).
Proof.
  intros hk hA hd. split; [reflexivity|]. unfold bulk, heat_expr. cbn [geval unsigned bind py_neg py_mul py_sub py_div nmul nsub nopp Snum].
  unfold pydiv. cbn [neqb nq ndiv Snum]. rewrite q2r_0. rewrite (proj2 (Reqb_false (Rabs d) 0)) by (apply Rabs_no_R0; lra).
  cbn [rmap bind number]. rewrite !(Rabs_pos_eq _ (Rlt_le _ _ hk)), !(Rabs_pos_eq _ (Rlt_le _ _ hA)), !(Rabs_pos_eq _ (Rlt_le _ _ hd)). reflexivity.
Qed.
Definition k_u : pyval R := VMulti (MO MMulti 2 [bu_ "W" 1] [bu_ "m" 1; bu_ "K" 1]).
Definition kelvin (x : R) : pyval R := VUnit (UO Temperature x "K" (eint 1)).
Definition wall_expr : expr := heat_expr k_u (kelvin 300) (kelvin 310) (VUnit (UO Area 5 "m^2" (eint 1))) (VUnit (UO Length 20 "cm" (eint 1))).
Lemma wall_count : tame wall_expr /\ (exists r, @geval nat Cnum fresh wall_expr = Ok r) /\ roundings wall_expr = 9%nat.
Proof. split; [cbn; unfold firm; cbn; tauto|]. split; [eexists; vm_compute; reflexivity|vm_compute; reflexivity]. Qed.
