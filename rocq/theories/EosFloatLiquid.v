(** * EosFloatLiquid: the liquid iterations in binary64 *)
From Coq Require Import String List ZArith QArith Qcanon Bool Reals Qreals Lra Lia.
From Coq Require Import Floats.SpecFloat.
From Verif Require Import Py Num NumFacts UnitsData UnitsStruct Units Expr Rounding RoundSpec RoundFacts RoundErr RoundCases Range RangeSpec FloatExp FloatRound B64Facts RangeFacts B64Spec B64Full WaterFloatFacts Eos EosSpec EosFacts EosFoundSpec EosLiquid EosFloat.
Local Open Scope string_scope.
Local Open Scope R_scope.
Local Notation p2 := (powerRZ 2).

(** ** A little more room than b .. 2 b *)
Section Wide.
Variables (b q : R).
Hypothesis hb : 0 < b <= 8 / 11.
Hypothesis hq : 6 <= q.
Definition wide (x : R) : Prop := b - b / 2000 <= x <= 2 * b + b / 1000.
Lemma wide_in x : wide x -> b <= gl b q x <= 2 * b + 0.0009 * b.
Proof.
  unfold wide. intro hx. pose proof (qb_pos b q hb hq) as hp. rewrite (gl_eq b q hb hq). set (N := x * (x + b) * (1 + b - x)).
  assert (h1 : 0 <= x * (x + b) <= 6.0051 * (b * b)) by (split; nra). assert (h2 : 0 <= 1 + b - x <= 1 + b / 2000) by lra.
  assert (hN : 0 <= N <= q * b * (1.0009 * b)).
  { unfold N. split; [apply Rmult_le_pos; lra|]. apply Rle_trans with (6.0054 * (b * b)); [|nra].
    destruct (Rle_dec x b) as [l|l].
    - assert (x * (x + b) <= 2 * (b * b)) by nra. assert (x * (x + b) * (1 + b - x) <= 2 * (b * b) * 2); [apply Rmult_le_compat; nra|nra].
    - assert (x * (x + b) * (1 + b - x) <= 6.0051 * (b * b) * 1) by (apply Rmult_le_compat; lra). nra. }
  assert (h3 : 0 <= N / (q * b) <= 1.0009 * b); [|lra]. split; [apply Rmult_le_pos; [lra|left; apply Rinv_0_lt_compat; lra]|].
  apply (Rmult_le_reg_r (q * b)); [lra|]. unfold Rdiv. rewrite Rmult_assoc, Rinv_l by lra. lra.
Qed.
Lemma wide_lip x y : wide x -> b <= y <= 2 * b -> Rabs (gl b q x - gl b q y) <= 5.01 / q * Rabs (x - y).
Proof.
  unfold wide. intros hx hy. pose proof (qb_pos b q hb hq) as hp. set (D := x + y + b * (1 + b) - (x * x + x * y + y * y)).
  assert (e : gl b q x - gl b q y = D / b / q * (x - y)) by (unfold gl, D; field; lra).
  assert (hD : Rabs D <= 5.01 * b).
  { apply Rabs_le. unfold D. assert (0.999 * (b * b) <= x * x <= 4.0041 * (b * b)) by nra. assert (b * b <= y * y <= 4 * (b * b)) by nra. assert (0.999 * (b * b) <= x * y <= 4.0021 * (b * b)) by nra. nra. }
  rewrite e, Rabs_mult. apply Rmult_le_compat_r; [apply Rabs_pos|]. unfold Rdiv. rewrite !Rabs_mult.
  rewrite (Rabs_pos_eq (/ q)) by (left; apply Rinv_0_lt_compat; lra). rewrite (Rabs_pos_eq (/ b)) by (left; apply Rinv_0_lt_compat; lra).
  apply Rmult_le_compat_r; [left; apply Rinv_0_lt_compat; lra|]. apply (Rmult_le_reg_r b); [lra|]. rewrite Rmult_assoc, Rinv_l by lra. lra.
Qed.
Lemma wide_rate : 0 < 5.01 / q <= 0.835.
Proof. split; [apply Rdiv_lt_0_compat; lra|]. apply (Rmult_le_reg_r q); [lra|]. unfold Rdiv. rewrite Rmult_assoc, Rinv_l by lra. lra. Qed.
End Wide.

Lemma guard_ok n j : (n <= 100)%nat -> (0 <= j <= 1000)%Z -> guard n j = Some (n, j).
Proof. intros h1 h2. unfold guard. rewrite (proj2 (Z.leb_le 0 j)), (proj2 (Z.leb_le j 1000)), (proj2 (Z.leb_le (Z.of_nat n) 1000000)) by lia. reflexivity. Qed.
Section Float.
Variables (u : R) (allowed : Qc -> bool) (p : spec_float -> Qc -> res spec_float).
Hypothesis hu : / 2 ^ 53 <= u <= / 2 ^ 40.
Notation B := (Bpow p).
Notation rel := (rel u true).
Let us := u_small u hu.
Variables (b q : R) (bf qf : spec_float) (kb kA : Z).
Hypothesis hb : 0 < b <= 8 / 11.
Hypothesis hq : 6 <= q.
Hypothesis hkb : (1 <= kb <= 210)%Z.
Hypothesis hkA : (0 <= kA <= 420)%Z.
Hypothesis rb : rel b bf (Some (5%nat, kb)).
Variable nA : nat.
Hypothesis hnA : (nA <= 14)%nat.
Hypothesis rA : rel (q * b) (SFmul 53 1024 qf bf) (Some (nA, kA)).
Lemma own_rel x : finite64 x -> wide b (SFR x) -> rel (SFR x) x (Some (O, (kb + 2)%Z)).
Proof.
  intros fx hx. unfold wide in hx. destruct rb as (_ & _ & sb & _ & _ & _). cbn. split; [exact fx|]. split; [apply within_0|]. split; [|split; [lia|split; [lia|intros _; lra]]].
  right. rewrite Rabs_pos_eq by lra. destruct sb as [sb|sb]; [lra|]. rewrite (Rabs_pos_eq b) in sb by lra. split.
  - apply Rle_trans with (p2 (-1) * p2 (- kb)); [rewrite <- p2_add; apply p2_le; lia|]. change (p2 (-1)) with (/ (2 * 1)). lra.
  - apply Rle_trans with (p2 kb * p2 2); [|rewrite <- p2_add; right; f_equal; lia]. change (p2 2) with (2 * (2 * 1)). lra.
Qed.
Lemma liquid_step x : finite64 x -> wide b (SFR x) ->
  exists y, @liquid_rhs spec_float B (VNum bf) (VNum qf) (VNum x) = Ok (VNum y) /\ finite64 y /\ wide b (SFR y) /\ Rabs (SFR y - gl b q (SFR x)) <= 141 * u * b.
Proof.
  intros fx hx. pose proof (own_rel x fx hx) as rx. pose proof rA as rA'. set (A := SFmul 53 1024 qf bf) in *.
  pose proof (wide_in b q hb hq (SFR x) hx) as hin. pose proof (qb_pos b q hb hq) as hp. pose proof hx as hx'. unfold wide in hx'.
  (* x * (x + b) *)
  pose proof (r_add u allowed p hu _ _ _ _ _ _ rx rb) as r1. cbn [nadd Rnum Bpow Snum] in r1. rewrite guard_ok in r1 by lia. set (s1 := SFadd 53 1024 x bf) in *.
  pose proof (r_mul u allowed p hu true _ _ _ _ _ _ rx r1) as r2. cbn [nmul Rnum Bpow Snum s_prod] in r2. rewrite guard_ok in r2 by lia. set (s2 := SFmul 53 1024 x s1) in *.
  (* 1 + b - x *)
  pose proof (r_add u allowed p hu _ _ _ _ _ _ (rel_one u allowed p hu) rb) as r3. cbn [nadd Rnum Bpow Snum] in r3. rewrite guard_ok in r3 by lia. set (s3 := SFadd 53 1024 (f_lit 1) bf) in *.
  destruct (rel_err u hu _ _ _ _ r3 ltac:(lia)) as [f3 e3]. set (v := 1 + b - SFR x). assert (hv : 0.27 <= v <= 1.1) by (unfold v; lra).
  assert (e3' : Rabs (SFR s3 - (1 + b)) <= 10.5 * u). { apply Rle_trans with (1 := e3). replace (INR (S (Nat.max 0 5))) with 6 by (cbn; lra). nra. }
  pose proof (abs_le _ _ e3') as e3''. destruct (rounds u hu _ _ 1.2 (sub_full s3 x f3 fx) ltac:(apply Rabs_le; unfold v in hv; lra) ltac:(lra)) as [f4 rd4].
  set (s4 := SFsub 53 1024 s3 x) in *.
  pose proof (rd_bound u _ us (tiny u (proj1 hu)) _ _ 1.2 rd4 ltac:(apply Rabs_le; unfold v in hv; lra)) as e4. pose proof (abs_le _ _ e4) as e4'.
  assert (w4 : within u 46 v (SFR s4)).
  { apply (err_within u hu); [lia|lra|]. replace (INR 45) with 45 by (cbn; lra). apply Rle_trans with (12 * u); [apply Rabs_le; unfold v; lra|]. assert (u * 0.27 <= u * v) by (apply Rmult_le_compat_l; lra). lra. }
  assert (r4 : rel v s4 (Some (46%nat, 2%Z))).
  { unfold RangeFacts.rel. split; [exact f4|]. split; [exact w4|]. split; [|split; [lia|split; [lia|intros _; lra]]]. right. rewrite Rabs_pos_eq by lra. pose proof (eq_refl : p2 (- (2)) = / (2 * (2 * 1))) as e1. pose proof (eq_refl : p2 2 = 2 * (2 * 1)) as e2. lra. }
  (* the rest *)
  pose proof (r_ndiv u allowed p hu true _ _ _ _ _ _ (Rgt_not_eq _ _ hp) r4 rA') as r5. cbn [ndiv Rnum Bpow Snum s_prod] in r5. rewrite guard_ok in r5 by lia. set (s5 := SFdiv 53 1024 s4 A) in *.
  pose proof (r_mul u allowed p hu true _ _ _ _ _ _ r2 r5) as r6. cbn [nmul Rnum Bpow Snum s_prod] in r6. rewrite guard_ok in r6 by lia. set (s6 := SFmul 53 1024 s2 s5) in *.
  pose proof (r_add u allowed p hu _ _ _ _ _ _ rb r6) as r7. cbn [nadd Rnum Bpow Snum] in r7. rewrite guard_ok in r7 by lia.
  change (b + SFR x * (SFR x + b) * (v / (q * b))) with (gl b q (SFR x)) in r7.
  destruct (rel_err u hu _ _ _ _ r7 ltac:(lia)) as [f7 e7]. set (s7 := SFadd 53 1024 bf s6) in *.
  assert (e7' : Rabs (SFR s7 - gl b q (SFR x)) <= 141 * u * b).
  { apply Rle_trans with (1 := e7). apply Rle_trans with (70.01 * u * (2 * b + 0.0009 * b)); [|nra].
    apply Rmult_le_compat; [|lra| |lra]; [apply Rmult_le_pos; [pose proof (pos_INR (S (Nat.max 5 (S (S (0 + S (Nat.max 0 5)) + S (46 + nA)))))); lra|lra]|].
    apply Rmult_le_compat_r; [lra|]. replace 70.01 with (INR 70 + 0.01) by (rewrite INR_IZR_INZ; cbn; lra). apply Rplus_le_compat_r, le_INR. lia. }
  destruct (rel_nz u hu _ _ _ rA') as (fA & zA & _). exists s7. split; [|split; [exact f7|split; [|exact e7']]].
  - unfold liquid_rhs, lift2, num. cbn [bind nq Bpow]. rewrite !b_add, !b_mul. cbn [bind]. rewrite !b_mul, b_sub. cbn [bind]. fold A s1 s2 s3 s4. rewrite b_div by assumption. cbn [bind]. rewrite b_mul. cbn [bind]. apply b_add.
  - pose proof (abs_le _ _ e7') as h7. assert (141 * u * b <= 0.00001 * b) by nra. unfold wide. lra.
Qed.
Lemma liquid_loop z : cubic b q z -> b <= z <= 2 * b -> forall n x d, finite64 x -> wide b (SFR x) -> Rabs (SFR x - z) <= d + 900 * u * b ->
  exists y, @loop spec_float (@liquid_rhs spec_float B (VNum bf) (VNum qf)) n (VNum x) = Ok (VNum y) /\ finite64 y /\ Rabs (SFR y - z) <= (5.01 / q) ^ n * d + 900 * u * b.
Proof.
  intros hc hz. set (r := 5.01 / q). pose proof (wide_rate b q hb hq) as hr. fold r in hr. assert (hub : 0 < u * b) by nra.
  induction n as [|n IH]; intros x d fx hx hd.
  - exists x. cbn [loop pow]. split; [reflexivity|]. split; [exact fx|]. lra.
  - destruct (liquid_step x fx hx) as (y & e1 & fy & hy & ey). cbn [loop]. rewrite e1. cbn [bind].
    assert (hd' : Rabs (SFR y - z) <= r * d + 900 * u * b).
    { pose proof (wide_lip b q hb hq (SFR x) z hx hz) as hl. rewrite (liquid_fix b q hb hq z hc) in hl. fold r in hl.
      pose proof (Rabs_triang (SFR y - gl b q (SFR x)) (gl b q (SFR x) - z)) as ht. replace (SFR y - gl b q (SFR x) + (gl b q (SFR x) - z)) with (SFR y - z) in ht by ring.
      assert (r * Rabs (SFR x - z) <= r * (d + 900 * u * b)) by (apply Rmult_le_compat_l; lra). assert (r * (900 * (u * b)) <= 0.835 * (900 * (u * b))) by (apply Rmult_le_compat_r; lra). lra. }
    destruct (IH y _ fy hy hd') as (w & e2 & fw & hw). exists w. split; [exact e2|]. split; [exact fw|].
    apply Rle_trans with (1 := hw). cbn [pow]. apply Req_le. ring.
Qed.
Lemma float_liquid fv v z n : cubic b q z -> b <= z <= 2 * b ->
  exists x, @solve_state spec_float B "liquid" fv v (@liquid_rhs spec_float B (VNum bf) (VNum qf)) (@liquid_rhs spec_float B (VNum bf) (VNum qf)) (VNum bf) n = Ok (VNum x) /\
    finite64 x /\ Rabs (SFR x - z) <= (5.01 / q) ^ (S (Z.to_nat n)) * b + 900 * u * b.
Proof.
  intros hc hz. unfold solve_state. replace (String.eqb "liquid" "vapor") with false by reflexivity. replace (String.eqb "liquid" "liquid") with true by reflexivity.
  destruct (rel_err u hu _ _ _ _ rb ltac:(lia)) as [fb eb]. replace (INR 5) with 5 in eb by (cbn; lra). pose proof (abs_le _ _ eb) as eb'. assert (hs : u * b <= 0.000001 * b) by (apply Rmult_le_compat_r; lra).
  assert (hub : 0 < u * b) by nra.
  destruct (liquid_loop z hc hz (S (Z.to_nat n)) bf b fb) as (y & ey & fy & hy).
  - unfold wide. lra.
  - apply Rabs_le. lra.
  - exists y. split; [exact ey|]. split; [exact fy|exact hy].
Qed.
End Float.
