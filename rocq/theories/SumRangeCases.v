(** * SumRangeCases: the library's sums and differences in binary64 *)
From Coq Require Import String List ZArith QArith Qcanon Bool Reals Qreals Lia Lra.
From Coq Require Import Floats.SpecFloat.
From Verif Require Import Py Num NumFacts UnitsData UnitsStruct Units Expr Rounding RoundSpec RoundFacts RoundErr RoundCases Solve Formulas.
From Verif Require Import Range RangeSpec FloatExp FloatRound B64Facts RangeFacts RangeCases SumSpec SumErr SumCases SumRange SumRangeFacts.
Import ListNotations.
Local Open Scope string_scope.
Local Open Scope list_scope.
Local Open Scope R_scope.
Local Notation p2 := (powerRZ 2).

Lemma near1_mono u v x y : u <= v -> near1 u x y -> near1 v x y.
Proof. unfold near1. intros h k. apply Rle_trans with (1 := k). apply Rmult_le_compat_r; [apply Rabs_pos|exact h]. Qed.
Lemma pow_good_mono u v allowed p : u <= v -> pow_good u allowed p -> pow_good v allowed p.
Proof.
  intros h k y q f a. specialize (k y q f a). destruct (Rpowq (SFR y) q) as [w|e]; [|exact k].
  intro s. destruct (k s) as (r & e & fr & n). exists r. eauto using near1_mono.
Qed.
Definition u64 : R := / 2 ^ 53 + / 2 ^ 75.
Lemma u64_range : / 2 ^ 53 + / 2 ^ 75 <= u64 <= / 2 ^ 40.
Proof.
  unfold u64. split; [lra|]. assert (a : forall n, / 2 ^ (41 + n) <= / 2 * / 2 ^ 40).
  { intro n. rewrite <- Rinv_mult. change (2 * 2 ^ 40) with (2 ^ 41). apply Rinv_le_contravar; [apply pow_lt; lra|]. apply Rle_pow; [lra|lia]. }
  pose proof (a 12%nat) as h1. pose proof (a 34%nat) as h2. cbn [Nat.add] in *. lra.
Qed.
Lemma f_pow_u64 : pow_good u64 is_int f_pow.
Proof.
  apply (pow_good_mono (/ 2 ^ 53)); [|exact f_pow_good]. unfold u64. assert (0 < / 2 ^ 75) by (apply Rinv_0_lt_compat, pow_lt; lra). lra.
Qed.

Section Library.
Variables (u : R) (allowed : Qc -> bool) (p : spec_float -> Qc -> res spec_float).
Hypothesis hu : / 2 ^ 53 + / 2 ^ 75 <= u <= / 2 ^ 40.
Hypothesis hp : pow_good u allowed p.
Variables (enc : R -> spec_float) (sz : R -> Z).
Lemma runs_computed e : steady e -> computed u allowed p enc sz (eval e) e.
Proof. intros h hv n. apply (binary_any allowed sz u p hu hp enc e n h hv). Qed.
Ltac go := apply runs_computed; cbn; unfold firm; cbn; tauto.
Lemma heat_computed k T1 T2 A d q :
  computed u allowed p enc sz (planar_heat [AVal k; AVal T1; AVal T2; AVal A; AVal d] []) (heat_expr k T1 T2 A d) /\
  computed u allowed p enc sz (planar_heat [AVal k; AVal T1; AVal T2; AVal A; ANone; AVal q] []) (heat_d_expr k T1 T2 A q) /\
  computed u allowed p enc sz (planar_heat [AVal k; AVal T1; ANone; AVal A; AVal d; AVal q] []) (heat_T2_expr k T1 A d q) /\
  computed u allowed p enc sz (planar_heat [AVal k; ANone; AVal T2; AVal A; AVal d; AVal q] []) (heat_T1_expr k T2 A d q).
Proof. destruct (heat_runs k T1 T2 A d q) as (-> & -> & -> & ->). repeat split; go. Qed.
Lemma flux_computed k T1 T2 d q :
  computed u allowed p enc sz (planar_flux [AVal k; AVal T1; AVal T2; AVal d] []) (flux_expr k T1 T2 d) /\
  computed u allowed p enc sz (planar_flux [AVal k; AVal T1; AVal T2; ANone; AVal q] []) (flux_d_expr k T1 T2 q) /\
  computed u allowed p enc sz (planar_flux [AVal k; AVal T1; ANone; AVal d; AVal q] []) (flux_T2_expr k T1 d q) /\
  computed u allowed p enc sz (planar_flux [AVal k; ANone; AVal T2; AVal d; AVal q] []) (flux_T1_expr k T2 d q).
Proof. destruct (flux_runs k T1 T2 d q) as (-> & -> & -> & ->). repeat split; go. Qed.
Lemma mass_computed D A C2 C1 t :
  computed u allowed p enc sz (planar_mass_transfer D A C2 C1 t) (heat_expr D C1 C2 A t) /\
  computed u allowed p enc sz (planar_mass_flux D C2 C1 t) (flux_expr D C1 C2 t).
Proof. destruct (mass_runs D A C2 C1 t) as (-> & ->). split; go. Qed.
Lemma grashof_computed g beta T2 T1 L rho mu : computed u allowed p enc sz (grashof g beta T2 T1 L rho mu) (grashof_expr g beta T2 T1 L rho mu).
Proof. rewrite grashof_runs. go. Qed.
End Library.

(** ** Plain numbers *)
Lemma heat_number_fits allowed sz k T1 T2 A d : (forall x, 0 <= sz x <= 240)%Z ->
  fits_any allowed sz (heat_expr (VNum k) (VNum T1) (VNum T2) (VNum A) (VNum d)) = Some 4%nat.
Proof.
  intro h. unfold fits_any, heat_expr. cbn [geval pv_map bind py_neg py_mul py_sub py_div nopp nmul nsub nadd Tnum Range.Snum].
  assert (gd : forall n k, (0 <= k <= 1000)%Z -> (Z.of_nat n <= 1000000)%Z -> guard n k = Some (n, k)).
  { intros n j h1 h2. unfold guard. rewrite (proj2 (Z.leb_le 0 j)), (proj2 (Z.leb_le j 1000)), (proj2 (Z.leb_le (Z.of_nat n) 1000000)) by lia. reflexivity. }
  pose proof (h k). pose proof (h T1). pose proof (h T2). pose proof (h A). pose proof (h d).
  rewrite !(gd O) by (cbn; lia). cbn [s_prod Nat.add Nat.max]. rewrite !(gd 1%nat) by (cbn; lia). cbn [s_prod Nat.add Nat.max].
  unfold pydiv. cbn [neqb ndiv Tnum Range.Snum s_prod Nat.add rmap bind]. rewrite (gd 2%nat) by (cbn; lia). cbn [rmap bind s_prod Nat.add].
  rewrite (gd 4%nat) by (cbn; lia). reflexivity.
Qed.

(** ** Lost digits: (2^53 m + 1 m) - 2^53 m *)
Definition metre (x : R) : pyval R := VUnit (UO Length x "m" (eint 1)).
Definition lost_expr : expr := ESub (EAdd (ELeaf (metre (IZR (2 ^ 53)))) (ELeaf (metre 1))) (ELeaf (metre (IZR (2 ^ 53)))).
Lemma held_wide z : (1 <= Z.abs z <= 2 ^ 53)%Z -> held enc_int (fun _ => 53%Z) (IZR z).
Proof.
  intro h. unfold held, enc_int. rewrite nearest_int. destruct (f_int_near z) as (a & _ & c); [apply Z.le_trans with (1 := proj2 h); vm_compute; discriminate|].
  split; [exact a|]. split; [apply c, h|]. right. rewrite <- abs_IZR. split.
  - apply Rle_trans with 1; [change 1 with (p2 0); apply p2_le; lia|apply IZR_le; lia].
  - rewrite p2_nonneg by lia. apply IZR_le, h.
Qed.
Lemma digits_lost : exists enc sz e, steady e /\ leaves (held enc sz) e /\ fits_any is_int sz e = Some 2%nat /\
  eval e = Ok (metre 1) /\ exists r, beval f_pow enc e = Ok (VUnit (UO Length r "m" (eint 1))) /\ SFR r = 0.
Proof.
  exists enc_int, (fun _ => 53%Z), lost_expr. split; [cbn; tauto|]. split; [cbn [leaves lost_expr metre uv]; repeat split; apply held_wide; vm_compute; split; discriminate|].
  split; [vm_compute; reflexivity|]. split.
  - cbn -[Z.pow]. unfold metre. do 3 f_equal. lra.
  - exists (S754_zero false). split; [|reflexivity]. unfold beval, lost_expr, metre. cbn [geval pv_map uc uv un ue]. unfold enc_int. rewrite !nearest_int. vm_compute. reflexivity.
Qed.
Lemma wall_fits : steady wall_expr /\ leaves (held enc_int (fun _ => 10%Z)) wall_expr /\ fits_any is_int (fun _ => 10%Z) wall_expr = Some 9%nat.
Proof. split; [cbn; unfold firm; cbn; tauto|]. split; [cbn; repeat split; apply held_int; cbn; lia|vm_compute; reflexivity]. Qed.
