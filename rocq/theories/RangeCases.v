(** * RangeCases: whole powers in binary64, concrete runs, runs out of range *)
From Coq Require Import String Ascii List ZArith QArith Qcanon Bool Reals Qreals Lia Lra.
From Coq Require Import Floats.SpecFloat.
From Verif Require Import Py Num NumFacts UnitsData UnitsStruct Units Expr Rounding RoundSpec RoundFacts RoundErr RoundCases Range RangeSpec FloatExp FloatRound B64Facts RangeFacts.
Import ListNotations.
Local Open Scope string_scope.
Local Open Scope list_scope.
Local Open Scope R_scope.
Local Notation p2 := (powerRZ 2).

(** ** [f_pow] *)
Lemma sgn_pow s n : sgn s ^ Pos.to_nat n = sgn (s && Z.odd (Zpos n)).
Proof.
  rewrite <- (positive_nat_Z n). generalize (Pos.to_nat n). intro k. destruct s; cbn [andb sgn]; [|apply pow1].
  induction k as [|k IH]; [reflexivity|]. cbn [pow]. rewrite IH. rewrite Nat2Z.inj_succ, Z.odd_succ, <- Z.negb_odd. destruct (Z.odd (Z.of_nat k)); cbn; ring.
Qed.
Lemma p2_mul e n : p2 e ^ Pos.to_nat n = p2 (e * Zpos n).
Proof.
  rewrite <- (positive_nat_Z n). generalize (Pos.to_nat n). intro k. induction k as [|k IH]; [rewrite Z.mul_0_r; reflexivity|].
  cbn [pow]. rewrite IH, <- p2_add. f_equal. lia.
Qed.
Lemma whole_power s m e n : SFR (S754_finite s m e) ^ Pos.to_nat n = sgn (s && Z.odd (Zpos n)) * (IZR (Zpos (Pos.pow m n)) * p2 (e * Zpos n)).
Proof.
  cbn [SFR]. fold (sgn s). rewrite !Rpow_mult_distr, sgn_pow, p2_mul. f_equal. f_equal. rewrite Pos2Z.inj_pow.
  rewrite pow_IZR. f_equal. f_equal. apply positive_nat_Z.
Qed.
Lemma odd_neg n : Z.odd (Zneg n) = Z.odd (Zpos n).
Proof. destruct n; reflexivity. Qed.
Lemma f_pow_good : pow_good (/ 2 ^ 53) is_int f_pow.
Proof.
  intros y q hy hq. unfold Rpowq, f_pow. rewrite hq.
  assert (e : QcR q = IZR (Qnum (this q))) by (unfold is_int in hq; apply Pos.eqb_eq in hq; unfold QcR, Q2R; rewrite hq; field).
  assert (neg : Qcltb q (qc 0) = (Qnum (this q) <? 0)%Z).
  { assert (z : QcR (qc 0) = 0) by (change (QcR (qc 0)) with (Q2R 0); apply q2r_0). destruct (Z.ltb_spec (Qnum (this q)) 0) as [l|l].
    - apply Qcltb_lt. rewrite e, z. apply IZR_lt, l.
    - apply Qcltb_ge. rewrite e, z. apply IZR_le, l. }
  rewrite neg. destruct (Qnum (this q)) as [|n|n]; cbn [Z.ltb Z.compare f_powz].
  - rewrite andb_false_r. intros _. destruct (f_int_near 1) as (a & b & _); [vm_compute; discriminate|].
    assert (k : exists s m x, f_int 1 = S754_finite s m x) by (do 3 eexists; vm_compute; reflexivity). destruct k as (s & m & x & k).
    exists (f_int 1). cbn [bind]. rewrite k. rewrite <- k. auto.
  - rewrite andb_false_r. cbn [powerRZ]. intro hs. destruct y as [s|s| |s m x]; try contradiction.
    + eexists. split; [reflexivity|]. split; [exact I|]. cbn [SFR]. rewrite pow_i by lia. apply near_self.
    + rewrite whole_power in *. set (v := IZR (Z.pos (m ^ n)) * p2 (x * Z.pos n)) in *.
      assert (vp : 0 < v) by (apply Rmult_lt_0_compat; [apply IZR_lt; lia|apply p2_gt]).
      destruct (sized_mid 1010 _ ltac:(lia) hs) as [z|md]; [exfalso; apply Rmult_integral in z; destruct z; [destruct (s && _); cbn in *; lra|lra]|].
      unfold mid in md. rewrite Rabs_mult, sgn_abs, Rmult_1_l, Rabs_pos_eq in md by lra.
      destruct (round_int (s && Z.odd (Z.pos n)) (m ^ n) (x * Z.pos n) md) as (a & b & _).
      exists (binary_round 53 1024 (s && Z.odd (Z.pos n)) (m ^ n) (x * Z.pos n)). split; [|split; [exact a|]].
      * cbn [bind]. destruct (binary_round _ _ _ _ _); try contradiction; reflexivity.
      * unfold near1. fold v in b. rewrite Rabs_mult, sgn_abs, Rmult_1_l, (Rabs_pos_eq v) by lra. exact b.
  - destruct y as [s|s| |s m x]; try contradiction.
    + cbn [SFR]. rewrite (proj2 (Reqb_true 0 0)) by reflexivity. reflexivity.
    + rewrite (proj2 (Reqb_false _ 0)) by (intro z; apply (SFR_zero _ hy) in z; destruct z; discriminate). cbn [andb powerRZ]. intro hs.
      rewrite whole_power in *. set (v := IZR (Z.pos (m ^ n)) * p2 (x * Z.pos n)) in *.
      assert (vp : 0 < v) by (apply Rmult_lt_0_compat; [apply IZR_lt; lia|apply p2_gt]).
      assert (ev : / (sgn (s && Z.odd (Z.pos n)) * v) = sgn (s && Z.odd (Z.pos n)) * (IZR 1 * p2 0 / v)).
      { change (p2 0) with 1. rewrite Rinv_mult. destruct (s && _); cbn [sgn]; field; lra. }
      rewrite ev in *. assert (ip : 0 < IZR 1 * p2 0 / v) by (change (p2 0) with 1; apply Rdiv_lt_0_compat; lra).
      destruct (sized_mid 1010 _ ltac:(lia) hs) as [z|md]; [exfalso; apply Rmult_integral in z; destruct z; [destruct (s && _); cbn in *; lra|lra]|].
      unfold mid in md. rewrite Rabs_mult, sgn_abs, Rmult_1_l, Rabs_pos_eq in md by lra.
      destruct (quot_near (s && Z.odd (Z.pos n)) 1 0 (Zpos (m ^ n)) (x * Z.pos n) eq_refl eq_refl md) as (a & b).
      exists (f_quot (s && Z.odd (Z.pos n)) 1 0 (Zpos (m ^ n)) (x * Z.pos n)). rewrite odd_neg. split; [|split; [exact a|exact b]].
      cbn [bind]. destruct (f_quot _ _ _ _ _); try contradiction; reflexivity.
Qed.

(** ** Runs in range *)
Definition enc_int (x : R) : spec_float := f_int (nearest x).
Lemma held_int z : (1 <= Z.abs z <= 1000)%Z -> held enc_int (fun _ => 10%Z) (IZR z).
Proof.
  intro h. unfold held, enc_int. rewrite nearest_int. destruct (f_int_near z) as (a & _ & c); [apply Z.le_trans with (1 := proj2 h); vm_compute; discriminate|].
  split; [exact a|]. split; [apply c; apply Z.le_trans with (1 := proj2 h); vm_compute; discriminate|]. right. rewrite <- abs_IZR. split.
  - apply Rle_trans with 1; [change 1 with (p2 0); apply p2_le; lia|apply IZR_le; lia].
  - rewrite p2_nonneg by lia. apply IZR_le. apply Z.le_trans with (1 := proj2 h). vm_compute. discriminate.
Qed.
Lemma sample_fits : no_sums sample /\ leaves (held enc_int (fun _ => 10%Z)) sample /\ fits is_int (fun _ => 10%Z) sample = Some 21%nat.
Proof. split; [cbn; tauto|]. split; [cbn; repeat split; apply held_int; cbn; lia|vm_compute; reflexivity]. Qed.
Lemma sample_sum_fits : only_positive sample_sum /\ leaves (held enc_int (fun _ => 10%Z)) sample_sum /\ fits is_int (fun _ => 10%Z) sample_sum = Some 2%nat.
Proof. split; [cbn; lra|]. split; [cbn; repeat split; apply held_int; cbn; lia|vm_compute; reflexivity]. Qed.
Lemma speed_fits : let m := MO MMulti (f_int 36) [bu_ "km" 1] [bu_ "hr" 1] in
  finite64 (mv m) /\ sized 10 (SFR (mv m)) /\ fits_multi is_int 10 m "m/s" = Some 14%nat.
Proof.
  cbn zeta. cbn [mv]. split; [apply f_int_near; vm_compute; discriminate|]. split; [|vm_compute; reflexivity].
  replace (SFR (f_int 36)) with (IZR 36) by (symmetry; apply (f_int_near 36); vm_compute; discriminate).
  right. rewrite Rabs_pos_eq by lra. rewrite p2_opp. rewrite p2_nonneg by lia. change (2 ^ 10)%Z with 1024%Z. split; lra.
Qed.
Lemma inches_fit : let w := UO Length (f_lit (5 # 2)) "in" (eint 1) in
  finite64 (uv w) /\ sized 10 (SFR (uv w)) /\ fits_unit is_int 10 w "cm" = Some 6%nat.
Proof.
  cbn zeta. cbn [uv]. split; [vm_compute; reflexivity|]. split; [|vm_compute; reflexivity].
  replace (f_lit (5 # 2)) with (S754_finite false 5629499534213120 (-51)) by (vm_compute; reflexivity). cbn [SFR]. rewrite Rmult_1_l.
  right. change (p2 (-51)) with (p2 (- (51))). rewrite !p2_opp, !p2_nonneg by lia. change (2 ^ 51)%Z with 2251799813685248%Z. change (2 ^ 10)%Z with 1024%Z.
  rewrite Rabs_pos_eq by lra. split; lra.
Qed.

(** ** Runs out of range: 2^600 m times 2^600, divided by 2^600; 2^-600 m divided
    by the square of 2^-600 *)
Definition big : spec_float := S754_finite false 4503599627370496 548.
Definition small : spec_float := S754_finite false 4503599627370496 (-652).
Definition over_expr (x : R) : expr := EDiv (EMul (ELeaf (VUnit (UO Length x "m" (eint 1)))) (ELeaf (VNum x))) (ELeaf (VNum x)).
Definition under_expr (x : R) : expr := EDiv (ELeaf (VUnit (UO Length x "m" (eint 1)))) (EMul (ELeaf (VNum x)) (ELeaf (VNum x))).
Lemma big_val : SFR big = p2 600.
Proof.
  unfold big. cbn [SFR]. rewrite Rmult_1_l. change 4503599627370496%positive with (2 ^ 52)%positive. rewrite Pos2Z.inj_pow.
  rewrite <- p2_nonneg by lia. rewrite <- p2_add. reflexivity.
Qed.
Lemma small_val : SFR small = p2 (-600).
Proof.
  unfold small. cbn [SFR]. rewrite Rmult_1_l. change 4503599627370496%positive with (2 ^ 52)%positive. rewrite Pos2Z.inj_pow.
  rewrite <- p2_nonneg by lia. rewrite <- p2_add. reflexivity.
Qed.
Lemma p2_sized k : (Z.abs k <= 600)%Z -> sized 600 (p2 k).
Proof. intro h. right. rewrite Rabs_pos_eq by (left; apply p2_gt). split; apply p2_le; lia. Qed.
Lemma overflow : exists enc e x, no_sums e /\ leaves (held enc (fun _ => 600%Z)) e /\
  eval e = Ok (VUnit (UO Length x "m" (eint 1))) /\ sized 600 x /\
  beval f_pow enc e = Ok (VUnit (UO Length (S754_infinity false) "m" (eint 1))).
Proof.
  assert (h : held (fun _ => big) (fun _ => 600%Z) (p2 600)) by (split; [reflexivity|split; [apply big_val|apply p2_sized; lia]]).
  exists (fun _ => big), (over_expr (p2 600)), (p2 600 * p2 600 / p2 600). pose proof (p2_gt 600) as g. split; [cbn; tauto|]. split; [cbn [leaves over_expr uv]; auto|].
  split; [|split].
  - revert g. generalize (p2 600). intros x g. cbn. unfold pydiv. cbn [neqb nq Rnum]. rewrite q2r_0. rewrite (proj2 (Reqb_false _ 0)) by lra. reflexivity.
  - replace (p2 600 * p2 600 / p2 600) with (p2 600) by (field; lra). apply p2_sized. lia.
  - vm_compute. reflexivity.
Qed.
Lemma underflow : exists enc e x, no_sums e /\ leaves (held enc (fun _ => 600%Z)) e /\
  eval e = Ok (VUnit (UO Length x "m" (eint 1))) /\ sized 600 x /\
  beval f_pow enc e = Raise EZeroDivisionError.
Proof.
  assert (h : held (fun _ => small) (fun _ => 600%Z) (p2 (-600))) by (split; [reflexivity|split; [apply small_val|apply p2_sized; lia]]).
  pose proof (p2_gt (-600)) as g. assert (g2 : p2 (-600) * p2 (-600) <> 0) by (apply Rgt_not_eq, Rmult_lt_0_compat; exact g).
  exists (fun _ => small), (under_expr (p2 (-600))), (p2 (-600) / (p2 (-600) * p2 (-600))). split; [cbn; tauto|]. split; [cbn [leaves under_expr uv]; auto|].
  split; [|split].
  - revert g2. generalize (p2 (-600)). intros x g2. cbn. unfold pydiv. cbn [neqb nq Rnum]. rewrite q2r_0. rewrite (proj2 (Reqb_false _ 0)) by exact g2. reflexivity.
  - replace (p2 (-600) / (p2 (-600) * p2 (-600))) with (/ p2 (-600)) by (field; lra). rewrite <- p2_opp. apply p2_sized. lia.
  - vm_compute. reflexivity.
Qed.
