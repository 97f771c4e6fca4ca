(** * EosFloat: the vapor iterations in binary64 *)
From Coq Require Import String List ZArith QArith Qcanon Bool Reals Qreals Lra Lia.
From Coq Require Import Floats.SpecFloat.
From Verif Require Import Py Num NumFacts UnitsData UnitsStruct Units Expr Rounding RoundSpec RoundFacts RoundErr RoundCases Range RangeSpec FloatExp FloatRound B64Facts RangeFacts B64Spec B64Full WaterFloatFacts Eos EosSpec EosFacts EosFoundSpec.
Local Open Scope string_scope.
Local Open Scope R_scope.
Local Notation p2 := (powerRZ 2).

(** ** One step, in real numbers

    [rd v r] : r is v rounded. *)
Section Step.
Variables (u e : R).
Hypothesis hu : 0 < u <= / 1000000000000.
Hypothesis he : 0 <= e <= u / 1000.
Definition rd (v r : R) : Prop := Rabs (r - v) <= u * Rabs v + e.
Lemma abs_le x y : Rabs x <= y -> - y <= x <= y.
Proof. apply Rabs_le_inv. Qed.
Lemma rd_bound v r M : rd v r -> Rabs v <= M -> Rabs (r - v) <= u * M + u / 1000.
Proof. intros h hM. apply Rle_trans with (1 := h). apply Rplus_le_compat; [apply Rmult_le_compat_l; lra|lra]. Qed.

Variables (b q x bf A1 : R).
Hypothesis hb : 0 < b <= 1 / 2.
Hypothesis hk : 0 < q * b <= 1 / 5.
Hypothesis hx : 1 / 2 <= x <= 2.
Hypothesis hbf : Rabs (bf - b) <= 5.01 * u * b.
Hypothesis hA : Rabs (A1 - q * b) <= 14.01 * u * (q * b).
Lemma b_err : Rabs (bf - b) <= 2.505 * u.
Proof. apply Rle_trans with (1 := hbf). nra. Qed.
Lemma A_err : Rabs (A1 - q * b) <= 2.802 * u.
Proof. apply Rle_trans with (1 := hA). nra. Qed.
Lemma v1_size : Rabs (x - bf) <= 2.
Proof. pose proof (abs_le _ _ hbf). apply Rabs_le. split; nra. Qed.
Lemma v2_size : 1 / 2 <= x + bf <= 2.6.
Proof. pose proof (abs_le _ _ hbf). split; nra. Qed.
Section S12.
Variables s1 s2 : R.
Hypothesis r1 : rd (x - bf) s1.
Hypothesis r2 : rd (x + bf) s2.
Lemma s1_err : Rabs (s1 - (x - b)) <= 4.6 * u.
Proof. pose proof (abs_le _ _ b_err). pose proof (abs_le _ _ (rd_bound _ _ _ r1 v1_size)). apply Rabs_le. lra. Qed.
Lemma s2_err : Rabs (s2 - (x + b)) <= 5.2 * u.
Proof. pose proof v2_size. pose proof (abs_le _ _ b_err). pose proof (abs_le _ _ (rd_bound _ _ 2.6 r2 ltac:(apply Rabs_le; lra))). apply Rabs_le. lra. Qed.
Lemma v3_size : Rabs (x * s2) <= 6.
Proof. pose proof (abs_le _ _ s2_err). rewrite Rabs_mult. rewrite (Rabs_pos_eq x) by lra. apply Rle_trans with (2 * 3); [|lra]. apply Rmult_le_compat; try apply Rabs_pos; try lra. apply Rabs_le. lra. Qed.
Variable s3 : R.
Hypothesis r3 : rd (x * s2) s3.
Let D := x * (x + b).
Lemma D_low : 1 / 4 <= D. Proof. unfold D. nra. Qed.
(** Relative to x (x + b), which is at least x / 2. *)
Lemma s3_err : Rabs (s3 - D) <= 16 * u * x.
Proof.
  pose proof (abs_le _ _ s2_err) as h2. assert (hs : Rabs (x * s2) <= 2.6 * x).
  { rewrite Rabs_mult, (Rabs_pos_eq x) by lra. rewrite Rmult_comm. apply Rmult_le_compat_r; [lra|]. apply Rabs_le. lra. }
  pose proof (abs_le _ _ (rd_bound _ _ _ r3 hs)) as h3. assert (h4 : Rabs (x * s2 - D) <= 5.2 * u * x).
  { unfold D. replace (x * s2 - x * (x + b)) with (x * (s2 - (x + b))) by ring. rewrite Rabs_mult, (Rabs_pos_eq x), Rmult_comm by lra. apply Rmult_le_compat_r; [lra|exact s2_err]. }
  pose proof (abs_le _ _ h4) as h5. apply Rabs_le. nra.
Qed.
Lemma s3_low : D * 0.999 <= s3.
Proof. pose proof (abs_le _ _ s3_err). pose proof D_low. unfold D in *. nra. Qed.
Lemma s3_pos : 0 < s3. Proof. pose proof s3_low. pose proof D_low. lra. Qed.
Let h := (x - b) / D.
Lemma h_range : 0 <= h <= 2.
Proof.
  pose proof D_low. unfold h. split; [apply Rmult_le_pos; [lra|left; apply Rinv_0_lt_compat; lra]|].
  apply (Rmult_le_reg_r D); [lra|]. unfold Rdiv. rewrite Rmult_assoc, Rinv_l by lra. unfold D. nra.
Qed.
Lemma v4_err : Rabs (s1 / s3 - h) <= 84 * u.
Proof.
  pose proof s3_pos as hp. pose proof D_low as hd. pose proof h_range as hh. pose proof s3_low as hl.
  assert (eq : s1 / s3 - h = ((s1 - (x - b)) - h * (s3 - D)) / s3). { unfold h. field. split; lra. }
  rewrite eq. unfold Rdiv. rewrite Rabs_mult, (Rabs_pos_eq (/ s3)) by (left; apply Rinv_0_lt_compat, hp).
  apply (Rmult_le_reg_r s3); [exact hp|]. rewrite Rmult_assoc, Rinv_l by lra. rewrite Rmult_1_r.
  assert (hx2 : h * x <= 1). { unfold h. replace ((x - b) / D * x) with ((x - b) / (x + b)) by (unfold D; field; lra). apply (Rmult_le_reg_r (x + b)); [lra|]. unfold Rdiv. rewrite Rmult_assoc, Rinv_l by lra. lra. }
  assert (g : Rabs (h * (s3 - D)) <= 16 * u).
  { rewrite Rabs_mult, (Rabs_pos_eq h) by lra. apply Rle_trans with (h * (16 * u * x)); [apply Rmult_le_compat_l; [lra|exact s3_err]|]. nra. }
  pose proof (abs_le _ _ g). pose proof (abs_le _ _ s1_err). apply Rabs_le. nra.
Qed.
Variable s4 : R.
Hypothesis r4 : rd (s1 / s3) s4.
Lemma v4_size : Rabs (s1 / s3) <= 2.1.
Proof. pose proof h_range. pose proof (abs_le _ _ v4_err). apply Rabs_le. lra. Qed.
Lemma s4_err : Rabs (s4 - h) <= 86.2 * u.
Proof. pose proof (abs_le _ _ v4_err). pose proof (abs_le _ _ (rd_bound _ _ _ r4 v4_size)). apply Rabs_le. lra. Qed.
Lemma v5_err : Rabs (A1 * s4 - q * b * h) <= 23 * u.
Proof.
  pose proof h_range as hh. pose proof (abs_le _ _ s4_err) as h4.
  replace (A1 * s4 - q * b * h) with ((A1 - q * b) * s4 + q * b * (s4 - h)) by ring.
  apply Rle_trans with (1 := Rabs_triang _ _). rewrite (Rabs_mult (A1 - q * b)), (Rabs_mult (q * b)), (Rabs_pos_eq (q * b)) by lra.
  assert (g1 : Rabs (A1 - q * b) * Rabs s4 <= 2.802 * u * 2.01) by (apply Rmult_le_compat; try apply Rabs_pos; [exact A_err|apply Rabs_le; lra]).
  assert (g2 : q * b * Rabs (s4 - h) <= 1 / 5 * (86.2 * u)) by (apply Rmult_le_compat; try apply Rabs_pos; try lra; exact s4_err). lra.
Qed.
Lemma v5_size : Rabs (A1 * s4) <= 0.41.
Proof. pose proof h_range as hh. assert (0 <= q * b * h <= 0.4) by nra. pose proof (abs_le _ _ v5_err). apply Rabs_le. lra. Qed.
Variable s5 : R.
Hypothesis r5 : rd (A1 * s4) s5.
Lemma s5_err : Rabs (s5 - q * b * h) <= 23.5 * u.
Proof. pose proof (abs_le _ _ v5_err). pose proof (abs_le _ _ (rd_bound _ _ _ r5 v5_size)). apply Rabs_le. lra. Qed.
Variable s6 : R.
Hypothesis r6 : rd (1 + bf) s6.
Lemma v6_size : Rabs (1 + bf) <= 1.51.
Proof. pose proof (abs_le _ _ b_err). apply Rabs_le. lra. Qed.
Lemma s6_err : Rabs (s6 - (1 + b)) <= 4.1 * u.
Proof. pose proof (abs_le _ _ b_err). pose proof (abs_le _ _ (rd_bound _ _ _ r6 v6_size)). apply Rabs_le. lra. Qed.
Lemma v7_size : Rabs (s6 - s5) <= 1.6.
Proof. pose proof h_range as hh. assert (0 <= q * b * h <= 0.4) by nra. pose proof (abs_le _ _ s5_err). pose proof (abs_le _ _ s6_err). apply Rabs_le. lra. Qed.
Variable s7 : R.
Hypothesis r7 : rd (s6 - s5) s7.
Lemma s7_err : Rabs (s7 - gv b q x) <= 30 * u.
Proof.
  pose proof (abs_le _ _ s5_err). pose proof (abs_le _ _ s6_err). pose proof (abs_le _ _ (rd_bound _ _ _ r7 v7_size)).
  unfold gv. change ((x - b) / (x * (x + b))) with h. apply Rabs_le. lra.
Qed.
Lemma s7_in : 1 / 2 <= s7 <= 2.
Proof.
  pose proof (abs_le _ _ s7_err) as g. pose proof h_range as hh. unfold gv in g. change ((x - b) / (x * (x + b))) with h in g. assert (0 <= q * b * h <= 0.4) by nra. lra.
Qed.
End S12.
End Step.

(** ** The step in binary64 *)
Lemma tiny u : / 2 ^ 53 <= u -> 0 <= p2 (-1075) <= u / 1000.
Proof.
  intro h. split; [left; apply p2_gt|]. apply Rle_trans with (/ 2 ^ 53 / 1000); [|apply Rmult_le_compat_r; lra].
  change (/ 2 ^ 53) with (p2 (-53)). apply Rle_trans with (p2 (-63)); [apply p2_le; lia|]. replace (-53)%Z with (-63 + 10)%Z by lia. rewrite p2_add. pose proof (p2_gt (-63)).
  change (p2 10) with (2 ^ 10). lra.
Qed.
Section Float.
Variables (u : R) (allowed : Qc -> bool) (p : spec_float -> Qc -> res spec_float).
Hypothesis hu : / 2 ^ 53 <= u <= / 2 ^ 40.
Hypothesis hp : pow_good u allowed p.
Notation B := (Bpow p).
Notation e := (p2 (-1075)).
Lemma rounds v r M : rounded64 v r /\ slight v r -> Rabs v <= M -> M <= 1000000000 -> finite64 r /\ rd u e v (SFR r).
Proof.
  intros [h1 h2] hM hM2. destruct (f_round v r ltac:(lra) h1 h2) as [f g]. split; [exact f|]. unfold rd. apply Rle_trans with (1 := g).
  apply Rplus_le_compat_r, Rmult_le_compat_r; [apply Rabs_pos|apply hu].
Qed.
Lemma b_add x y : @py_add spec_float B (VNum x) (VNum y) = Ok (VNum (SFadd 53 1024 x y)).
Proof. reflexivity. Qed.
Lemma b_sub x y : @py_sub spec_float B (VNum x) (VNum y) = Ok (VNum (SFsub 53 1024 x y)).
Proof. reflexivity. Qed.
Lemma b_mul x y : @py_mul spec_float B (VNum x) (VNum y) = Ok (VNum (SFmul 53 1024 x y)).
Proof. reflexivity. Qed.
Lemma b_test y : finite64 y -> SFR y <> 0 -> SFeqb y (f_lit 0) = false.
Proof. intros h1 h2. rewrite eqb_zero by exact h1. apply Reqb_no, h2. Qed.
Lemma b_div x y : finite64 y -> SFR y <> 0 -> @py_div spec_float B (VNum x) (VNum y) = Ok (VNum (SFdiv 53 1024 x y)).
Proof. intros h1 h2. unfold py_div, pydiv. cbn [neqb nq Bpow ndiv]. rewrite b_test by assumption. reflexivity. Qed.
Lemma b_one : finite64 (f_lit 1) /\ SFR (f_lit 1) = 1.
Proof. destruct (f_int_small 1 ltac:(vm_compute; discriminate)) as [h1 h2]. split; [exact h1|exact h2]. Qed.

Variables (b q : R) (bf qf : spec_float).
Hypothesis hb : 0 < b <= 1 / 2.
Hypothesis hk : 0 < q * b <= 1 / 5.
Hypothesis fb : finite64 bf.
Hypothesis nb : Rabs (SFR bf - b) <= 5.01 * u * b.
Hypothesis fA : finite64 (SFmul 53 1024 qf bf).
Hypothesis nA : Rabs (SFR (SFmul 53 1024 qf bf) - q * b) <= 14.01 * u * (q * b).
Let us := u_small u hu.
Let te := tiny u (proj1 hu).
Lemma float_step x : finite64 x -> 1 / 2 <= SFR x <= 2 ->
  exists y, @vapor_rhs spec_float B (VNum bf) (VNum qf) (VNum x) = Ok (VNum y) /\ finite64 y /\ 1 / 2 <= SFR y <= 2 /\ Rabs (SFR y - gv b q (SFR x)) <= 30 * u.
Proof.
  intros fx hx. destruct b_one as [f1 e1]. set (A := SFmul 53 1024 qf bf) in *.
  destruct (rounds _ _ 2 (sub_full x bf fx fb) (v1_size u e us te b q (SFR x) (SFR bf) hb hk hx nb) ltac:(lra)) as [g1 r1]. set (s1 := SFsub 53 1024 x bf) in *.
  pose proof (v2_size u us b (SFR x) (SFR bf) hb hx nb) as z2.
  destruct (rounds _ _ 2.6 (add_full x bf fx fb) ltac:(apply Rabs_le; lra) ltac:(lra)) as [g2 r2]. set (s2 := SFadd 53 1024 x bf) in *.
  destruct (rounds _ _ 6 (mul_full x s2 fx g2) (v3_size u e us te b q (SFR x) (SFR bf) hb hk hx nb (SFR s2) r2) ltac:(lra)) as [g3 r3]. set (s3 := SFmul 53 1024 x s2) in *.
  pose proof (s3_pos u e us te b q (SFR x) (SFR bf) hb hk hx nb (SFR s2) r2 (SFR s3) r3) as ps.
  destruct (rounds _ _ 2.1 (div_full s1 s3 g1 g3 ltac:(lra)) (v4_size u e us te b q (SFR x) (SFR bf) hb hk hx nb (SFR s1) (SFR s2) r1 r2 (SFR s3) r3) ltac:(lra)) as [g4 r4]. set (s4 := SFdiv 53 1024 s1 s3) in *.
  destruct (rounds _ _ 0.41 (mul_full A s4 fA g4) (v5_size u e us te b q (SFR x) (SFR bf) (SFR A) hb hk hx nb nA (SFR s1) (SFR s2) r1 r2 (SFR s3) r3 (SFR s4) r4) ltac:(lra)) as [g5 r5]. set (s5 := SFmul 53 1024 A s4) in *.
  pose proof (add_full (f_lit 1) bf f1 fb) as o6. rewrite e1 in o6.
  destruct (rounds _ _ 1.51 o6 (v6_size u e us te b q (SFR bf) hb hk nb) ltac:(lra)) as [g6 r6]. set (s6 := SFadd 53 1024 (f_lit 1) bf) in *.
  destruct (rounds _ _ 1.6 (sub_full s6 s5 g6 g5) (v7_size u e us te b q (SFR x) (SFR bf) (SFR A) hb hk hx nb nA (SFR s1) (SFR s2) r1 r2 (SFR s3) r3 (SFR s4) r4 (SFR s5) r5 (SFR s6) r6) ltac:(lra)) as [g7 r7].
  exists (SFsub 53 1024 s6 s5). split; [|split; [exact g7|split]].
  - unfold vapor_rhs, lift2, num. cbn [bind nq Bpow]. rewrite !b_add, !b_sub, !b_mul. cbn [bind]. rewrite b_mul. cbn [bind]. fold A s1 s2 s3 s6. rewrite b_div by (try assumption; lra). cbn [bind]. rewrite b_mul. cbn [bind]. apply b_sub.
  - exact (s7_in u e us te b q (SFR x) (SFR bf) (SFR A) hb hk hx nb nA (SFR s1) (SFR s2) r1 r2 (SFR s3) r3 (SFR s4) r4 (SFR s5) r5 (SFR s6) r6 _ r7).
  - exact (s7_err u e us te b q (SFR x) (SFR bf) (SFR A) hb hk hx nb nA (SFR s1) (SFR s2) r1 r2 (SFR s3) r3 (SFR s4) r4 (SFR s5) r5 (SFR s6) r6 _ r7).
Qed.
Lemma float_loop z : cubic b q z -> 1 / 2 <= z <= 1 + b -> forall n x d, finite64 x -> 1 / 2 <= SFR x <= 2 -> Rabs (SFR x - z) <= d + 150 * u ->
  exists y, @loop spec_float (@vapor_rhs spec_float B (VNum bf) (VNum qf)) n (VNum x) = Ok (VNum y) /\ finite64 y /\ Rabs (SFR y - z) <= (4 * (q * b)) ^ n * d + 150 * u.
Proof.
  intros hc hz. assert (hu0 : 0 < u) by (apply us). set (r := 4 * (q * b)). assert (hr : 0 < r <= 4 / 5) by (unfold r; lra).
  induction n as [|n IH]; intros x d fx hx hd.
  - exists x. cbn [loop pow]. split; [reflexivity|]. split; [exact fx|]. lra.
  - destruct (float_step x fx hx) as (y & e1 & fy & hy & ey). cbn [loop]. rewrite e1. cbn [bind].
    assert (hd' : Rabs (SFR y - z) <= r * d + 150 * u).
    { pose proof (gv_lip b q hb hk (SFR x) z ltac:(lra) ltac:(lra)) as hl. rewrite (cubic_fix b q hb hk z hc) in hl. fold r in hl.
      pose proof (Rabs_triang (SFR y - gv b q (SFR x)) (gv b q (SFR x) - z)) as ht. replace (SFR y - gv b q (SFR x) + (gv b q (SFR x) - z)) with (SFR y - z) in ht by ring.
      assert (r * Rabs (SFR x - z) <= r * (d + 150 * u)) by (apply Rmult_le_compat_l; lra). assert (r * (150 * u) <= 4 / 5 * (150 * u)) by (apply Rmult_le_compat_r; lra). lra. }
    destruct (IH y _ fy hy hd') as (w & e2 & fw & hw). exists w. split; [exact e2|]. split; [exact fw|].
    apply Rle_trans with (1 := hw). cbn [pow]. apply Req_le. ring.
Qed.
Lemma float_vapor fl l bl z n : cubic b q z -> 1 / 2 <= z <= 1 + b ->
  exists x, @solve_state spec_float B "vapor" (@vapor_rhs spec_float B (VNum bf) (VNum qf)) (@vapor_rhs spec_float B (VNum bf) (VNum qf)) fl l bl n = Ok (VNum x) /\
    finite64 x /\ Rabs (SFR x - z) <= (4 * (q * b)) ^ (S (Z.to_nat n)) / 2 + 150 * u.
Proof.
  intros hc hz. destruct b_one as [f1 e1]. unfold solve_state. replace (String.eqb "vapor" "vapor") with true by reflexivity.
  destruct (float_loop z hc hz (S (Z.to_nat n)) (f_lit 1) (1 / 2) f1) as (y & ey & fy & hy).
  - rewrite e1. lra.
  - rewrite e1. assert (0 < u) by (apply us). apply Rle_trans with (1 / 2); [apply Rabs_le; lra|lra].
  - exists y. split; [exact ey|]. split; [exact fy|]. lra.
Qed.
End Float.

(** ** Errors of products and positive sums *)
Section Rel.
Variables (u : R) (allowed : Qc -> bool) (p : spec_float -> Qc -> res spec_float).
Hypothesis hu : / 2 ^ 53 <= u <= / 2 ^ 40.
Notation rel := (rel u true).
Let us := u_small u hu.
Lemma within_err n x y : (n <= 100)%nat -> within u n x y -> Rabs (y - x) <= (INR n + 0.01) * u * Rabs x.
Proof.
  intros hn (f & hf & ->). replace (x * f - x) with ((f - 1) * x) by ring. rewrite Rabs_mult. apply Rmult_le_compat_r; [apply Rabs_pos|].
  pose proof (bernoulli u (u01 u hu) n) as hb. pose proof us as hs. set (a := INR n * u) in *. assert (hi : 0 <= INR n <= 100) by (split; [apply pos_INR|apply le_INR in hn; rewrite (INR_IZR_INZ 100) in hn; exact hn]).
  assert (ha : 0 <= a <= 100 * u) by (unfold a; split; [apply Rmult_le_pos; lra|apply Rmult_le_compat_r; lra]). assert (hl : 1 - a <= (1 - u) ^ n) by exact hb.
  assert (hr : / (1 - u) ^ n <= 1 + a + 0.01 * u).
  { apply Rle_trans with (/ (1 - a)); [apply Rinv_le_contravar; lra|]. apply (Rmult_le_reg_r (1 - a)); [lra|]. rewrite Rinv_l by lra.
    assert (a * a <= 100 * u * (100 * u)) by (apply Rmult_le_compat; lra). assert (u * u <= u * / 1000000000000) by (apply Rmult_le_compat_l; lra). assert (u * a <= u * / 1000) by (apply Rmult_le_compat_l; lra). lra. }
  replace ((INR n + 0.01) * u) with (a + 0.01 * u) by (unfold a; ring). apply Rabs_le. lra.
Qed.
Lemma rel_nz x y s : rel x y (Some s) -> finite64 y /\ SFR y <> 0 /\ 0 < x.
Proof.
  destruct s as (n, k). intros (f & w & _ & _ & _ & h). specialize (h eq_refl). split; [exact f|]. split; [|exact h].
  intro e. apply (within_eq u (u01 u hu) _ _ _ w) in e. lra.
Qed.
Lemma rel_err n k x y : rel x y (Some (n, k)) -> (n <= 100)%nat -> finite64 y /\ Rabs (SFR y - x) <= (INR n + 0.01) * u * x.
Proof.
  intros (f & w & _ & _ & _ & h) hn. specialize (h eq_refl). split; [exact f|]. pose proof (within_err n x (SFR y) hn w) as g. rewrite (Rabs_pos_eq x) in g by lra. exact g.
Qed.
Lemma rel_one : rel 1 (f_lit 1) (Some (0%nat, 0%Z)).
Proof. pose proof (r_lit u allowed p hu true 1 ltac:(intro; reflexivity)) as h. cbn [nq Rnum Bpow] in h. rewrite q1 in h. exact h. Qed.
(** A small relative error is a number of roundings. *)
Lemma err_within m x y : (m <= 99)%nat -> 0 < x -> Rabs (y - x) <= INR m * u * x -> within u (S m) x y.
Proof.
  intros hm hx h. exists (y / x). split; [|field; lra]. pose proof (abs_le _ _ h) as h'. pose proof us as hs. set (n := S m).
  assert (hi : 0 <= INR m <= 99). { split; [apply pos_INR|]. apply le_INR in hm. rewrite (INR_IZR_INZ 99) in hm. exact hm. }
  assert (en : INR n = INR m + 1) by (unfold n; apply S_INR).
  assert (r : 1 - INR m * u <= y / x <= 1 + INR m * u).
  { split; apply (Rmult_le_reg_r x); try exact hx; unfold Rdiv; rewrite (Rmult_assoc y), Rinv_l by lra; lra. }
  assert (hp : 0 < (1 - u) ^ n) by (apply pow_lt; lra).
  assert (hq : 1 + INR n * u <= / (1 - u) ^ n).
  { rewrite <- pow_inv. apply Rle_trans with ((1 + u) ^ n); [apply poly; lra|]. apply pow_incr. split; [lra|]. apply (Rmult_le_reg_r (1 - u)); [lra|]. rewrite Rinv_l by lra. nra. }
  assert (ha : 0 <= INR m * u <= 99 * u) by (split; [apply Rmult_le_pos; lra|apply Rmult_le_compat_r; lra]).
  split; [|rewrite en in hq; lra]. apply Rle_trans with (2 := proj1 r).
  assert (hr : (1 - u) ^ n <= / (1 + INR n * u)). { rewrite <- (Rinv_inv ((1 - u) ^ n)). apply Rinv_le_contravar; [rewrite en; lra|exact hq]. }
  apply Rle_trans with (1 := hr). rewrite en. apply (Rmult_le_reg_r (1 + (INR m + 1) * u)); [lra|]. rewrite Rinv_l by lra.
  set (a := INR m * u) in *. replace ((INR m + 1) * u) with (a + u) by (unfold a; ring).
  assert (a * (a + u) <= 99 * u * (100 * u)) by (apply Rmult_le_compat; lra). assert (u * u <= u * / 1000000000000) by (apply Rmult_le_compat_l; lra). nra.
Qed.
End Rel.
