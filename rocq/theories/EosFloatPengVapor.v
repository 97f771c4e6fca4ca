(** * EosFloatPengVapor: Peng and Robinson's vapor calls in binary64

    The first step divides (1 + beta) - 1 by q beta.  In binary64 that difference is 0 or
    between 0.5 beta and 4.2 beta; the second step lands between 1/2 and 2 either way. *)
From Coq Require Import String List ZArith QArith Qcanon Bool Reals Qreals Lra Lia.
From Coq Require Import Floats.SpecFloat.
From Verif Require Import Py Num NumFacts UnitsData UnitsStruct Units Expr Rounding RoundSpec RoundFacts RoundErr RoundCases Range RangeSpec FloatExp FloatRound B64Facts RangeFacts B64Spec B64Full WaterFloatFacts Eos EosSpec EosFacts EosFoundSpec EosLiquid EosFloatSpec EosFloat EosFloatLiquid EosFloatCalls EosFloatAlpha EosFloatSoave EosFloatPeng B64Round.
Local Open Scope string_scope.
Local Open Scope R_scope.
Local Notation p2 := (powerRZ 2).

(** ** The binary64 numbers around 1 *)
Lemma one_gap s : finite64 s -> SFR s <= 1 - / 2 ^ 53 \/ SFR s = 1 \/ 1 + / 2 ^ 52 <= SFR s.
Proof.
  intro hf. assert (h0 : 0 < / 2 ^ 53 <= / 2). { split; [apply Rinv_0_lt_compat, pow_lt; lra|]. apply Rinv_le_contravar; [lra|]. rewrite <- (pow_1 2) at 1. apply Rle_pow; [lra|lia]. }
  destruct s as [s|s| |s m e]; try contradiction; [left; cbn [SFR]; lra|].
  destruct s; [left; cbn [SFR]; pose proof (pos_mant m e); lra|].
  assert (hv : SFR (S754_finite false m e) = IZR (Zpos m) * p2 e) by (cbn [SFR]; ring). rewrite hv. destruct (bounded_cases m e hf) as (b1 & _ & _).
  change (/ 2 ^ 53) with (p2 (-53)) in *. change (/ 2 ^ 52) with (p2 (-52)).
  destruct (Z_le_gt_dec 0 e) as [he|he].
  - rewrite p2_nonneg by exact he. rewrite <- mult_IZR. assert (hp : (0 < 2 ^ e)%Z) by (apply Z.pow_pos_nonneg; lia).
    destruct (Z.eq_dec (Zpos m * 2 ^ e) 1) as [h|h]; [right; left; rewrite h; reflexivity|right; right].
    assert (hz : (2 <= Zpos m * 2 ^ e)%Z) by nia. apply IZR_le in hz. assert (p2 (-52) <= p2 0) by (apply p2_le; lia). change (p2 0) with 1 in *. lra.
  - assert (ee : p2 e * p2 (- e) = 1) by (rewrite <- p2_add; replace (e + - e)%Z with 0%Z by lia; reflexivity). pose proof (p2_gt e) as pe.
    set (n := (2 ^ (- e))%Z). assert (en : p2 (- e) = IZR n) by (apply p2_nonneg; lia). rewrite en in ee.
    destruct (Z.lt_trichotomy (Zpos m) n) as [h|[h|h]].
    + left. destruct (Z_le_gt_dec e (-54)) as [h5|h5].
      * apply Rle_trans with (p2 (-1)).
        { apply Rle_trans with (IZR (2 ^ 53) * p2 e); [apply Rmult_le_compat_r; [lra|apply IZR_le; lia]|]. rewrite <- p2_nonneg by lia. rewrite <- p2_add. apply p2_le. lia. }
        { change (p2 (-1)) with (/ (2 * 1)). lra. }
      * assert (hl : (Zpos m <= n - 1)%Z) by lia. apply IZR_le in hl. rewrite minus_IZR in hl.
        assert (IZR (Zpos m) * p2 e <= (IZR n - 1) * p2 e) by (apply Rmult_le_compat_r; lra). assert (p2 (-53) <= p2 e) by (apply p2_le; lia). lra.
    + right; left. rewrite h. lra.
    + right; right. assert (hl : (n + 1 <= Zpos m)%Z) by lia. assert (h52 : (-52 <= e)%Z).
      { apply Z.nlt_ge. intro hlt. assert (2 ^ 53 <= n)%Z by (unfold n; apply Z.pow_le_mono_r; lia). lia. }
      apply IZR_le in hl. rewrite plus_IZR in hl. assert ((IZR n + 1) * p2 e <= IZR (Zpos m) * p2 e) by (apply Rmult_le_compat_r; lra). assert (p2 (-52) <= p2 e) by (apply p2_le; lia). lra.
Qed.
(** Larger numbers than "rounds" takes. *)
Lemma big_top v : Rabs v <= p2 900 -> Rabs v < limit64 /\ Rabs v < top64.
Proof.
  intro h. change limit64 with top64. assert (Rabs v < top64); [|auto]. apply Rle_lt_trans with (1 := h). unfold top64.
  apply Rlt_le_trans with (2 * p2 970); [|apply Rmult_le_compat_r; [apply Rlt_le, p2_gt|apply IZR_le; discriminate]].
  assert (p2 900 <= p2 970) by (apply p2_le; lia). pose proof (p2_gt 970). lra.
Qed.
Lemma rounds_big u v r : / 2 ^ 53 <= u -> rounded64 v r /\ slight v r -> Rabs v <= p2 900 -> finite64 r /\ rd u (p2 (-1075)) v (SFR r).
Proof.
  intros hu [h1 h2] h. destruct (big_top v h) as [g1 g2]. split; [apply (proj1 h1 g1)|]. unfold rd. apply Rle_trans with (1 := h2 g2).
  apply Rplus_le_compat_r, Rmult_le_compat_r; [apply Rabs_pos|exact hu].
Qed.

(** ** In real numbers *)
Section Real.
Variables (u e : R).
Hypothesis hu : 0 < u <= / 1000000000000.
Notation rd := (rd u e).
Lemma rd_up v r M : rd v r -> Rabs v <= M -> 0 <= e <= M / 1000 -> Rabs r <= 1.002 * M.
Proof.
  unfold EosFloat.rd. intros h hM he. apply abs_le in h. apply abs_le in hM. assert (Rabs v <= M) by (apply Rabs_le; exact hM).
  assert (u * Rabs v <= / 1000000000000 * M) by (apply Rmult_le_compat; try apply Rabs_pos; lra). apply Rabs_le. lra.
Qed.
Lemma rd_dn v r m : rd v r -> 0 <= m <= v -> 0 <= e <= m / 1000 -> 0.998 * m <= r.
Proof. unfold EosFloat.rd. intros h hm he. apply abs_le in h. rewrite (Rabs_pos_eq v) in h by lra. nra. Qed.
Variables (b q bf A : R).
Hypothesis hb : 0 < b <= 1 / 2.
Hypothesis hq : 0.3 <= q.
Hypothesis hqk : q * (q * b) <= 1 / 6.
Hypothesis he : 0 <= e <= u * b ^ 2 / 1000.
Hypothesis nb : Rabs (bf - b) <= 5.01 * u * b.
Hypothesis nA : Rabs (A - q * b) <= 14.01 * u * (q * b).
Lemma bf_in : 0.999 * b <= bf <= 1.001 * b.
Proof. pose proof (abs_le _ _ nb). nra. Qed.
Lemma A_in : 0.999 * (q * b) <= A <= 1.001 * (q * b).
Proof. pose proof (abs_le _ _ nA) as h. assert (0 < q * b) by nra. nra. Qed.
Lemma e_b2 : e <= b ^ 2 / 1000000. Proof. nra. Qed.
Lemma e_b : e <= b / 1000000. Proof. pose proof e_b2. nra. Qed.
Lemma e_1 : e <= / 1000000. Proof. pose proof e_b. lra. Qed.

(** A step from x lands between 1/2 and 2. *)
Section Land.
Variable x : R.
Hypothesis hx : 0.99 * b <= x <= 1000.
Hypothesis hd : Rabs (x - bf) <= 2.35 * (q * x ^ 2).
Variables s1 s2 : R.
Hypothesis r1 : rd (x - bf) s1.
Hypothesis r2 : rd (x + bf) s2.
Lemma qx2 : 0.29 * b ^ 2 <= q * x ^ 2.
Proof. assert (h : 0.98 * b ^ 2 <= x ^ 2) by nra. assert (0 <= b ^ 2) by nra. nra. Qed.
Lemma l1 : Rabs s1 <= 2.355 * (q * x ^ 2).
Proof. pose proof qx2. pose proof e_b2. assert (0 <= b ^ 2) by nra. pose proof (rd_up _ _ _ r1 hd ltac:(lra)). lra. Qed.
Lemma l2 : 0.998 * x <= s2 /\ Rabs s2 <= 1005.
Proof.
  pose proof bf_in. pose proof e_b. pose proof e_1. split; [apply (rd_dn _ _ _ r2); lra|].
  pose proof (rd_up _ _ 1001 r2 ltac:(apply Rabs_le; lra) ltac:(lra)). lra.
Qed.
Variable s3 : R.
Hypothesis r3 : rd (x * s2) s3.
Lemma l3 : 0.996 * x ^ 2 <= s3 /\ Rabs (x * s2) <= 2000000.
Proof.
  destruct l2 as [h1 h2]. pose proof e_b2. assert (h : 0.98 * b ^ 2 <= x ^ 2) by nra. assert (0 <= b ^ 2) by nra. split.
  - pose proof (rd_dn _ _ (0.998 * x ^ 2) r3 ltac:(split; nra) ltac:(lra)). lra.
  - rewrite Rabs_mult, (Rabs_pos_eq x) by lra. apply Rle_trans with (1000 * 1005); [|lra]. apply Rmult_le_compat; try apply Rabs_pos; lra.
Qed.
Lemma s3_pos' : 0 < s3. Proof. destruct l3. assert (0 < x ^ 2) by nra. lra. Qed.
Lemma l4v : Rabs (s1 / s3) <= 2.365 * q.
Proof.
  pose proof s3_pos' as hp. destruct l3 as [h3 _]. pose proof l1 as h1. unfold Rdiv. rewrite Rabs_mult, (Rabs_pos_eq (/ s3)) by (left; apply Rinv_0_lt_compat, hp).
  apply (Rmult_le_reg_r s3); [exact hp|]. rewrite Rmult_assoc, Rinv_l, Rmult_1_r by lra. apply Rle_trans with (1 := h1).
  assert (q * (0.996 * x ^ 2) <= q * s3) by (apply Rmult_le_compat_l; lra). assert (0 <= q * x ^ 2) by (pose proof qx2; nra). lra.
Qed.
Variable s4 : R.
Hypothesis r4 : rd (s1 / s3) s4.
Lemma l4 : Rabs s4 <= 2.37 * q.
Proof. pose proof e_1. pose proof (rd_up _ _ _ r4 l4v ltac:(lra)). lra. Qed.
Lemma l5v : Rabs (A * s4) <= 0.396.
Proof.
  pose proof A_in as hA. assert (hqb : 0 < q * b) by nra. rewrite Rabs_mult, (Rabs_pos_eq A) by lra. apply Rle_trans with (1.001 * (q * b) * (2.37 * q)).
  - apply Rmult_le_compat; try apply Rabs_pos; try lra. exact l4.
  - replace (1.001 * (q * b) * (2.37 * q)) with (1.001 * 2.37 * (q * (q * b))) by ring. lra.
Qed.
Variable s5 : R.
Hypothesis r5 : rd (A * s4) s5.
Lemma l5 : Rabs s5 <= 0.398.
Proof. pose proof e_1. pose proof (rd_up _ _ _ r5 l5v ltac:(lra)). lra. Qed.
Variable s6 : R.
Hypothesis r6 : rd (1 + bf) s6.
Lemma l6v : Rabs (1 + bf) <= 1.51. Proof. pose proof bf_in. apply Rabs_le. lra. Qed.
Lemma l6 : 0.998 <= s6 <= 1.52.
Proof.
  pose proof e_1. pose proof bf_in. pose proof (rd_dn _ _ 1 r6 ltac:(lra) ltac:(lra)). pose proof (abs_le _ _ (rd_up _ _ _ r6 l6v ltac:(lra))). lra.
Qed.
Lemma l7v : Rabs (s6 - s5) <= 1.92. Proof. pose proof l6. pose proof (abs_le _ _ l5). apply Rabs_le. lra. Qed.
Variable s7 : R.
Hypothesis r7 : rd (s6 - s5) s7.
Lemma l7 : 1 / 2 <= s7 <= 2.
Proof.
  pose proof e_1. pose proof l6. pose proof (abs_le _ _ l5). pose proof (rd_dn _ _ 0.6 r7 ltac:(lra) ltac:(lra)). pose proof (abs_le _ _ (rd_up _ _ _ r7 l7v ltac:(lra))). lra.
Qed.
End Land.

(** The first step. *)
Section Start.
Variables (sg ep a1 a2 a3 a4 a5 : R).
Hypothesis ns : 2.4 <= sg <= 2.42.
Hypothesis ne : -0.4145 <= ep <= -0.4135.
Lemma t1v : Rabs (ep * bf) <= 0.2076. Proof. pose proof bf_in. apply Rabs_le. nra. Qed.
Hypothesis r1 : rd (ep * bf) a1.
Lemma t1 : Rabs a1 <= 0.209. Proof. pose proof e_1. pose proof (rd_up _ _ _ r1 t1v ltac:(lra)). lra. Qed.
Lemma t2v : Rabs (1 + a1) <= 1.21. Proof. pose proof (abs_le _ _ t1). apply Rabs_le. lra. Qed.
Hypothesis r2 : rd (1 + a1) a2.
Lemma t2 : 0.789 <= a2 <= 1.22.
Proof. pose proof e_1. pose proof (abs_le _ _ t1). pose proof (rd_dn _ _ 0.791 r2 ltac:(lra) ltac:(lra)). pose proof (abs_le _ _ (rd_up _ _ _ r2 t2v ltac:(lra))). lra. Qed.
Lemma t3v : 2.39 * b <= sg * bf <= 1.22. Proof. pose proof bf_in. nra. Qed.
Hypothesis r3 : rd (sg * bf) a3.
Lemma t3 : 0 <= a3 <= 1.23.
Proof.
  pose proof e_b. pose proof e_1. pose proof t3v. pose proof (rd_dn _ _ (2.39 * b) r3 ltac:(lra) ltac:(lra)). pose proof (abs_le _ _ (rd_up _ _ 1.22 r3 ltac:(apply Rabs_le; lra) ltac:(lra))). lra.
Qed.
Lemma t4v : Rabs (1 + a3) <= 2.23. Proof. pose proof t3. apply Rabs_le. lra. Qed.
Hypothesis r4 : rd (1 + a3) a4.
Lemma t4 : 0.998 <= a4 <= 2.24.
Proof. pose proof e_1. pose proof t3. pose proof (rd_dn _ _ 1 r4 ltac:(lra) ltac:(lra)). pose proof (abs_le _ _ (rd_up _ _ _ r4 t4v ltac:(lra))). lra. Qed.
Lemma t5v : 0.787 <= a2 * a4 <= 2.74. Proof. pose proof t2. pose proof t4. nra. Qed.
Hypothesis r5 : rd (a2 * a4) a5.
Lemma t5 : 0.785 <= a5 <= 2.75.
Proof. pose proof e_1. pose proof t5v. pose proof (rd_dn _ _ 0.787 r5 ltac:(lra) ltac:(lra)). pose proof (abs_le _ _ (rd_up _ _ 2.74 r5 ltac:(apply Rabs_le; lra) ltac:(lra))). lra. Qed.
Variables c2 c3 d y : R.
Hypothesis hc : 0.56 * b <= c2 <= 4.2 * b.
Hypothesis r6 : rd (c2 / A) c3.
Hypothesis r7 : rd (a5 * c3) d.
Hypothesis r8 : rd (bf + d) y.
Lemma b_q : b <= / q.
Proof. apply (Rmult_le_reg_r q); [lra|]. rewrite Rinv_l by lra. assert (0 < q * b) by nra. nra. Qed.
Lemma iq : 0 < / q <= 3.34.
Proof. split; [apply Rinv_0_lt_compat; lra|]. apply Rle_trans with (/ 0.3); [apply Rinv_le_contravar; lra|lra]. Qed.
Lemma t6v : 0.559 * / q <= c2 / A <= 4.21 * / q.
Proof.
  pose proof A_in as hA. assert (hqb : 0 < q * b) by nra. assert (hp : 0 < A) by lra. pose proof iq.
  assert (eb : / q * (q * b) = b) by (field; lra). split; apply (Rmult_le_reg_r A); try exact hp; unfold Rdiv; rewrite (Rmult_assoc c2), Rinv_l, Rmult_1_r by lra.
  - assert (/ q * A <= / q * (1.001 * (q * b))) by (apply Rmult_le_compat_l; lra). lra.
  - assert (/ q * (0.999 * (q * b)) <= / q * A) by (apply Rmult_le_compat_l; lra). lra.
Qed.
Lemma t6 : 0.557 * / q <= c3 <= 4.22 * / q.
Proof.
  pose proof e_b. pose proof b_q. pose proof iq. pose proof t6v. pose proof (rd_dn _ _ (0.559 * / q) r6 ltac:(lra) ltac:(lra)).
  pose proof (abs_le _ _ (rd_up _ _ (4.21 * / q) r6 ltac:(apply Rabs_le; lra) ltac:(lra))). lra.
Qed.
Lemma t7v : 0.437 * / q <= a5 * c3 <= 11.61 * / q.
Proof. pose proof iq. pose proof t5. pose proof t6. split; nra. Qed.
Lemma t7 : 0.436 * / q <= d <= 11.64 * / q.
Proof.
  pose proof e_b. pose proof b_q. pose proof iq. pose proof t7v. pose proof (rd_dn _ _ (0.437 * / q) r7 ltac:(lra) ltac:(lra)).
  pose proof (abs_le _ _ (rd_up _ _ (11.61 * / q) r7 ltac:(apply Rabs_le; lra) ltac:(lra))). lra.
Qed.
Lemma t8v : Rabs (bf + d) <= 40. Proof. pose proof bf_in. pose proof iq. pose proof t7. apply Rabs_le. lra. Qed.
Lemma t8 : 0.99 * b <= y <= 1000 /\ Rabs (y - bf) <= 2.35 * (q * y ^ 2).
Proof.
  pose proof e_b. pose proof e_1. pose proof bf_in as hbf. pose proof b_q. pose proof iq as hi. pose proof t7 as h7. pose proof (rd_dn _ _ (bf + d) r8 ltac:(lra) ltac:(lra)) as h1.
  pose proof (abs_le _ _ (rd_up _ _ 40 r8 t8v ltac:(lra))) as h2. assert (hy : 0.435 * / q <= y) by lra. split; [lra|].
  assert (hqy : 0.435 <= q * y). { replace 0.435 with (q * (0.435 * / q)) by (field; lra). apply Rmult_le_compat_l; lra. }
  assert (hy2 : Rabs (y - bf) <= y) by (apply Rabs_le; lra). apply Rle_trans with (1 := hy2). replace (2.35 * (q * y ^ 2)) with (2.35 * (q * y) * y) by ring. rewrite <- (Rmult_1_l y) at 1. apply Rmult_le_compat_r; lra.
Qed.
End Start.
End Real.

(** ** In binary64 *)
Section Float.
Variables (u : R) (allowed : Qc -> bool) (p : spec_float -> Qc -> res spec_float).
Hypothesis hu : / 2 ^ 53 <= u <= / 2 ^ 40.
Notation B := (Bpow p).
Notation e := (p2 (-1075)).
Notation rel := (rel u true).
Let us := u_small u hu.
Variables (b q : R) (bf qf sg ep : spec_float) (kb kA : Z) (nA : nat).
Hypothesis hb : 0 < b <= 1 / 2.
Hypothesis hq : 0.3 <= q.
Hypothesis hk : 0 < q * b <= 1 / 5.
Hypothesis hqk : q * (q * b) <= 1 / 6.
Hypothesis hkb : (1 <= kb <= 410)%Z.
Hypothesis rb : rel b bf (Some (5%nat, kb)).
Hypothesis hnA : (nA <= 14)%nat.
Hypothesis rA : rel (q * b) (SFmul 53 1024 qf bf) (Some (nA, kA)).
Hypothesis fs : finite64 sg.
Hypothesis fe : finite64 ep.
Hypothesis ns : 2.4 <= SFR sg <= 2.42.
Hypothesis ne : -0.4145 <= SFR ep <= -0.4135.
Let A := SFmul 53 1024 qf bf.
Lemma b_low : p2 (-410) <= b.
Proof.
  destruct rb as (_ & _ & sb & _ & _ & _). destruct sb as [sb|[sb _]]; [lra|]. rewrite (Rabs_pos_eq b) in sb by lra. apply Rle_trans with (2 := sb). apply p2_le. lia.
Qed.
Lemma e_small : 0 <= e <= u * b ^ 2 / 1000.
Proof.
  split; [left; apply p2_gt|]. pose proof b_low as h1. change (/ 2 ^ 53) with (p2 (-53)) in hu. pose proof (p2_gt (-410)). pose proof (p2_gt (-53)). pose proof (p2_gt (-10)).
  apply Rle_trans with (p2 (-53) * (p2 (-410) * p2 (-410)) * p2 (-10)).
  - rewrite <- !p2_add. apply p2_le. lia.
  - assert (h2 : p2 (-410) * p2 (-410) <= b ^ 2) by (cbn [pow]; rewrite Rmult_1_r; apply Rmult_le_compat; lra). assert (h3 : p2 (-10) <= / 1000) by (change (p2 (-10)) with (/ 2 ^ 10); apply Rinv_le_contravar; lra).
    assert (0 < p2 (-410) * p2 (-410)) by (apply Rmult_lt_0_compat; lra). unfold Rdiv. apply Rmult_le_compat; try lra; [apply Rmult_le_pos; lra|]. apply Rmult_le_compat; lra.
Qed.
Lemma q_high : q <= p2 410.
Proof.
  apply (Rmult_le_reg_r b); [lra|]. apply Rle_trans with 1; [lra|]. replace 1 with (p2 410 * p2 (-410)) by (rewrite <- p2_add; reflexivity). apply Rmult_le_compat_l; [apply Rlt_le, p2_gt|exact b_low].
Qed.
Lemma fb : finite64 bf. Proof. apply (beta_err u hu _ _ _ rb). Qed.
Lemma nb : Rabs (SFR bf - b) <= 5.01 * u * b. Proof. apply (beta_err u hu _ _ _ rb). Qed.
Lemma fA : finite64 A. Proof. apply (small_err u hu _ _ _ _ rA hnA). Qed.
Lemma nA' : Rabs (SFR A - q * b) <= 14.01 * u * (q * b). Proof. apply (small_err u hu _ _ _ _ rA hnA). Qed.
Lemma rounds_v v r M : rounded64 v r /\ slight v r -> Rabs v <= M -> M <= 1000000000 -> finite64 r /\ rd u e v (SFR r).
Proof. exact (rounds u hu v r M). Qed.
(** A step from such an x. *)
Lemma landing x : finite64 x -> 0.99 * b <= SFR x <= 1000 -> Rabs (SFR x - SFR bf) <= 2.35 * (q * SFR x ^ 2) ->
  exists y, @vapor_rhs spec_float B (VNum bf) (VNum qf) (VNum x) = Ok (VNum y) /\ finite64 y /\ 1 / 2 <= SFR y <= 2.
Proof.
  intros fx hx hd. destruct b_one as [f1 e1]. pose proof us as us'. pose proof e_small as he. pose proof nb as nb'. pose proof nA' as na'. pose proof fb as fb'. pose proof fA as fA'.
  pose proof (bf_in u us' b _ hb nb') as hbf.
  destruct (rounds_v _ _ 1001 (sub_full x bf fx fb') ltac:(apply Rabs_le; lra) ltac:(lra)) as [g1 r1]. set (s1 := SFsub 53 1024 x bf) in *.
  destruct (rounds_v _ _ 1001 (add_full x bf fx fb') ltac:(apply Rabs_le; lra) ltac:(lra)) as [g2 r2]. set (s2 := SFadd 53 1024 x bf) in *.
  assert (z3 : Rabs (SFR x * SFR s2) <= 2000000).
  { destruct (l2 u e us' b (SFR bf) hb he nb' (SFR x) hx (SFR s2) r2) as [h1 h2]. rewrite Rabs_mult, (Rabs_pos_eq (SFR x)) by lra. apply Rle_trans with (1000 * 1005); [|lra]. apply Rmult_le_compat; try apply Rabs_pos; lra. }
  destruct (rounds_v _ _ 2000000 (mul_full x s2 fx g2) z3 ltac:(lra)) as [g3 r3]. set (s3 := SFmul 53 1024 x s2) in *.
  assert (ps : 0 < SFR s3) by (eapply s3_pos'; eassumption).
  assert (z4 : Rabs (SFR s1 / SFR s3) <= 2.365 * q) by (eapply l4v; eassumption).
  assert (z4' : Rabs (SFR s1 / SFR s3) <= p2 900).
  { apply Rle_trans with (1 := z4). apply Rle_trans with (p2 2 * p2 410); [apply Rmult_le_compat; [lra|lra|change (p2 2) with (2 * (2 * 1)); lra|exact q_high]|]. rewrite <- p2_add. apply p2_le. lia. }
  destruct (rounds_big u _ _ (proj1 hu) (div_full s1 s3 g1 g3 ltac:(lra)) z4') as [g4 r4]. set (s4 := SFdiv 53 1024 s1 s3) in *.
  destruct (rounds_v _ _ 0.396 (mul_full A s4 fA' g4) ltac:(eapply l5v; eassumption) ltac:(lra)) as [g5 r5]. set (s5 := SFmul 53 1024 A s4) in *.
  pose proof (add_full (f_lit 1) bf f1 fb') as o6. rewrite e1 in o6.
  destruct (rounds_v _ _ 1.51 o6 ltac:(eapply l6v; eassumption) ltac:(lra)) as [g6 r6]. set (s6 := SFadd 53 1024 (f_lit 1) bf) in *.
  destruct (rounds_v _ _ 1.92 (sub_full s6 s5 g6 g5) ltac:(eapply l7v; eassumption) ltac:(lra)) as [g7 r7].
  exists (SFsub 53 1024 s6 s5). split; [|split; [exact g7|eapply l7; eassumption]].
  unfold vapor_rhs, lift2, num. cbn [bind nq Bpow]. rewrite !b_add, !b_sub, !b_mul. cbn [bind]. rewrite b_mul. cbn [bind]. fold A s1 s2 s3 s6. rewrite b_div by (try assumption; lra). cbn [bind]. rewrite b_mul. cbn [bind]. apply b_sub.
Qed.
(** (1 + beta) - 1. *)
Lemma one_beta : let c := SFsub 53 1024 (SFadd 53 1024 (f_lit 1) bf) (f_lit 1) in finite64 c /\ (SFR c = 0 \/ 0.56 * b <= SFR c <= 4.2 * b).
Proof.
  destruct b_one as [f1 e1]. pose proof us as us'. pose proof e_small as he. pose proof nb as nb'. pose proof fb as fb'. pose proof (bf_in u us' b _ hb nb') as hbf. pose proof (e_b u e us' b hb he) as heb.
  pose proof (add_full (f_lit 1) bf f1 fb') as [o1 o2]. rewrite e1 in o1, o2. destruct (f_round (1 + SFR bf) _ ltac:(apply Rabs_le; lra) o1 o2) as [g1 h1]. set (c1 := SFadd 53 1024 (f_lit 1) bf) in *.
  rewrite (Rabs_pos_eq (1 + SFR bf)) in h1 by lra. apply abs_le in h1. set (w := / 2 ^ 53) in *. assert (hw : 0 < w <= / 1000000000000). { split; [apply Rinv_0_lt_compat, pow_lt; lra|]. apply Rle_trans with u; [apply hu|apply us']. }
  assert (ew : / 2 ^ 52 = 2 * w). { unfold w. change (2 ^ 53) with (2 * 2 ^ 52). rewrite Rinv_mult. field. }
  assert (wb : w * SFR bf <= / 1000000000000 * SFR bf) by (apply Rmult_le_compat_r; lra). assert (wb2 : w * SFR bf <= w * 0.51) by (apply Rmult_le_compat_l; lra).
  pose proof (sub_full c1 (f_lit 1) g1 f1) as o3. rewrite e1 in o3. set (c2 := SFsub 53 1024 c1 (f_lit 1)) in *. cbv zeta.
  assert (D1 : Rabs (SFR c1 - 1) <= 1) by (apply Rabs_le; lra). assert (ew2 : e <= w / 1000).
  { apply Rle_trans with (p2 (-63)); [apply p2_le; lia|]. change w with (p2 (-53)). replace (-53)%Z with (-63 + 10)%Z by lia. rewrite p2_add. pose proof (p2_gt (-63)). change (p2 10) with (2 ^ 10). lra. }
  destruct (one_gap c1 g1) as [h|[h|h]].
  - exfalso. fold w in h. lra.
  - assert (h0 : SFR (S754_zero false) = SFR c1 - 1) by (cbn [SFR]; lra). destruct (rounded_exact (SFR c1 - 1) (S754_zero false) c2 ltac:(lra) (proj1 o3) I h0) as [g2 h2]. split; [exact g2|left; lra].
  - rewrite ew in h. destruct (rounds_v _ _ 1 o3 D1 ltac:(lra)) as [g2 r2]. split; [exact g2|right]. set (D := SFR c1 - 1) in *.
    assert (hD : 0.568 * SFR bf <= D <= 4.17 * SFR bf) by (unfold D in *; lra).
    pose proof (rd_dn u e us' _ _ (0.568 * SFR bf) r2 ltac:(lra) ltac:(lra)). pose proof (abs_le _ _ (rd_up u e us' _ _ (4.17 * SFR bf) r2 ltac:(apply Rabs_le; lra) ltac:(lra))). lra.
Qed.
Lemma start : exists y, @pr_rhs spec_float B (VNum sg) (VNum ep) (VNum bf) (VNum qf) (VNum (f_lit 1)) = Ok (VNum y) /\ finite64 y /\
  0.99 * b <= SFR y <= 1000 /\ Rabs (SFR y - SFR bf) <= 2.35 * (q * SFR y ^ 2).
Proof.
  destruct b_one as [f1 e1]. pose proof us as us'. pose proof e_small as he. pose proof nb as nb'. pose proof nA' as na'. pose proof fb as fb'. pose proof fA as fA'.
  pose proof (bf_in u us' b _ hb nb') as hbf. pose proof (A_in u us' b q _ hb hq na') as hA. assert (pA : SFR A <> 0) by lra.
  destruct (rounds_v _ _ 0.2076 (mul_full ep bf fe fb') ltac:(eapply t1v; eassumption) ltac:(lra)) as [g1 r1]. set (a1 := SFmul 53 1024 ep bf) in *.
  pose proof (add_full (f_lit 1) a1 f1 g1) as o2. rewrite e1 in o2.
  destruct (rounds_v _ _ 1.21 o2 ltac:(eapply t2v; eassumption) ltac:(lra)) as [g2 r2]. set (a2 := SFadd 53 1024 (f_lit 1) a1) in *.
  destruct (rounds_v _ _ 1.22 (mul_full sg bf fs fb') ltac:(apply Rabs_le; nra) ltac:(lra)) as [g3 r3]. set (a3 := SFmul 53 1024 sg bf) in *.
  pose proof (add_full (f_lit 1) a3 f1 g3) as o4. rewrite e1 in o4.
  destruct (rounds_v _ _ 2.23 o4 ltac:(eapply t4v; eassumption) ltac:(lra)) as [g4 r4]. set (a4 := SFadd 53 1024 (f_lit 1) a3) in *.
  assert (z5 : 0.787 <= SFR a2 * SFR a4 <= 2.74) by (eapply t5v; eassumption).
  destruct (rounds_v _ _ 2.74 (mul_full a2 a4 g2 g4) ltac:(apply Rabs_le; lra) ltac:(lra)) as [g5 r5]. set (a5 := SFmul 53 1024 a2 a4) in *.
  destruct one_beta as [gc hc]. set (c2 := SFsub 53 1024 (SFadd 53 1024 (f_lit 1) bf) (f_lit 1)) in *.
  assert (run : forall y, SFadd 53 1024 bf (SFmul 53 1024 a5 (SFdiv 53 1024 c2 A)) = y -> @pr_rhs spec_float B (VNum sg) (VNum ep) (VNum bf) (VNum qf) (VNum (f_lit 1)) = Ok (VNum y)).
  { intros y <-. unfold pr_rhs, lift2, num. cbn [bind nq Bpow]. rewrite !b_add, !b_mul. cbn [bind]. rewrite !b_add, b_sub. cbn [bind]. fold a1 a3 a2 a4 c2. rewrite b_mul. cbn [bind]. fold a5 A. rewrite b_div by assumption. cbn [bind]. rewrite b_mul. cbn [bind]. apply b_add. }
  exists (SFadd 53 1024 bf (SFmul 53 1024 a5 (SFdiv 53 1024 c2 A))). split; [apply run; reflexivity|].
  destruct hc as [hc|hc].
  - pose proof (div_full c2 A gc fA' pA) as [o6 _]. destruct (rounded_exact (SFR c2 / SFR A) (S754_zero false) _ ltac:(rewrite hc; unfold Rdiv; rewrite Rmult_0_l, Rabs_R0; lra) o6 I ltac:(rewrite hc; cbn [SFR]; lra)) as [g6 h6]. set (c3 := SFdiv 53 1024 c2 A) in *.
    rewrite hc in h6. unfold Rdiv in h6. rewrite Rmult_0_l in h6.
    pose proof (mul_full a5 c3 g5 g6) as [o7 _]. rewrite h6, Rmult_0_r in o7. destruct (rounded_exact 0 (S754_zero false) _ ltac:(rewrite Rabs_R0; lra) o7 I eq_refl) as [g7 h7]. set (d := SFmul 53 1024 a5 c3) in *.
    pose proof (add_full bf d fb' g7) as [o8 _]. rewrite h7, Rplus_0_r in o8. destruct (rounded_exact (SFR bf) bf _ ltac:(apply Rabs_le; lra) o8 fb' eq_refl) as [g8 h8].
    split; [exact g8|]. rewrite h8. split; [lra|]. rewrite Rminus_eq_0, Rabs_R0. assert (0 <= SFR bf ^ 2) by (apply pow_le; lra). assert (0 <= q * SFR bf ^ 2) by (apply Rmult_le_pos; lra). lra.
  - assert (z6 : 0.559 * / q <= SFR c2 / SFR A <= 4.21 * / q) by (eapply t6v; eassumption). pose proof (iq q hq) as hi.
    destruct (rounds_v _ _ 20 (div_full c2 A gc fA' pA) ltac:(apply Rabs_le; lra) ltac:(lra)) as [g6 r6]. set (c3 := SFdiv 53 1024 c2 A) in *.
    assert (z7 : 0.437 * / q <= SFR a5 * SFR c3 <= 11.61 * / q) by (eapply t7v; eassumption).
    destruct (rounds_v _ _ 40 (mul_full a5 c3 g5 g6) ltac:(apply Rabs_le; lra) ltac:(lra)) as [g7 r7]. set (d := SFmul 53 1024 a5 c3) in *.
    destruct (rounds_v _ _ 40 (add_full bf d fb' g7) ltac:(eapply t8v; eassumption) ltac:(lra)) as [g8 r8].
    split; [exact g8|]. eapply t8; eassumption.
Qed.
Lemma peng_vapor fl l bl z n : cubic b q z -> 1 / 2 <= z <= 1 + b -> (0 <= n)%Z ->
  exists x, @solve_state spec_float B "vapor" (@pr_rhs spec_float B (VNum sg) (VNum ep) (VNum bf) (VNum qf)) (@vapor_rhs spec_float B (VNum bf) (VNum qf)) fl l bl (n + 1) = Ok (VNum x) /\
    finite64 x /\ Rabs (SFR x - z) <= 3 / 2 * (4 * (q * b)) ^ (Z.to_nat n) + 150 * u.
Proof.
  intros hc hz hn. unfold solve_state. replace (String.eqb "vapor" "vapor") with true by reflexivity. change (nq 1) with (f_lit 1). destruct start as (x0 & e0 & f0 & h0 & d0). rewrite e0. cbn [bind].
  replace (Z.to_nat (n + 1)) with (S (Z.to_nat n)) by lia. cbn [loop]. destruct (landing x0 f0 h0 d0) as (x1 & e1 & f1 & h1). rewrite e1. cbn [bind].
  destruct (float_loop u p hu b q bf qf hb hk fb nb fA nA' z hc hz (Z.to_nat n) x1 (3 / 2) f1 h1) as (y & ey & fy & hy).
  - pose proof us. apply Rle_trans with (3 / 2); [apply Rabs_le; lra|lra].
  - exists y. split; [exact ey|]. split; [exact fy|]. lra.
Qed.
End Float.

Theorem pr_vapor64 u allowed p : / 2 ^ 53 <= u <= / 2 ^ 46 -> pow_good u allowed p -> allowed (ev e_half) = true -> allowed (ev (eint 2)) = true ->
  forall tn pn T P Tc Pc w, ordinary 100 T -> ordinary 100 P -> ordinary 100 Tc -> ordinary 100 Pc -> finite64 w -> sized 100 (SFR w) -> Rabs (SFR w) <= 1 ->
  let t := SFR T / SFR Tc in let r := SFR P / SFR Pc in let y := 1 + (0.37464 + 1.54226 * SFR w - 0.26992 * SFR w ^ 2) * (1 - sqrt t) in
  let q := 0.45724 * y ^ 2 / (0.07780 * t) in let k := 0.45724 * y ^ 2 * r / t ^ 2 in
  t <= 4 -> 1 / 2 <= y -> 0.07780 * r <= 1 / 2 * t -> k <= 1 / 5 -> q * k <= 1 / 6 ->
  finds_greatest64 (kwong_form 0.07780 (0.45724 * y ^ 2)) T P Tc Pc (fun n => @peng_robinson spec_float (Bpow p) (temp64 tn T) (pres64 pn P) (temp64 tn Tc) (pres64 pn Pc) "vapor" (VNum w) (n + 1))
    (fun n => 3 / 2 * (4 * k) ^ n + 7500 * u).
Proof.
  intros hu hp hh h2 tn pn T P Tc Pc w oT oP oTc oPc fw sw hw t r y q k ht4 hy hbt hk hqk.
  pose proof (hu40 u hu) as hu4. pose proof (u_small u hu4) as us.
  pose proof (pos_of _ _ oT) as qT. pose proof (pos_of _ _ oP) as qP. pose proof (pos_of _ _ oTc) as qTc. pose proof (pos_of _ _ oPc) as qPc.
  assert (hK0 : (0 <= 100 <= 100)%Z) by lia. pose proof (rel_t u allowed p hu4 T Tc 100 hK0 oT oTc) as rt.
  destruct (rel_nz u hu4 _ _ _ rt) as (ft & nt & ht). fold t in rt, ht. assert (hpr : 0 < r) by (apply Rdiv_lt_0_compat; assumption).
  destruct (alpha64 u allowed p hu4 hp hh h2 (37464 # 100000) (154226 # 100000) (26992 # 100000) _ _ t (SFdiv 53 1024 T Tc) w ltac:(split; [vm_compute; discriminate|reflexivity]) ltac:(split; [vm_compute; discriminate|reflexivity]) ltac:(split; [vm_compute; discriminate|reflexivity])
    ltac:(unfold Q2R; cbn [Qnum Qden]; lra) ltac:(unfold Q2R; cbn [Qnum Qden]; lra) ltac:(unfold Q2R; cbn [Qnum Qden]; lra) rt ltac:(lia) ltac:(lia) ht4 fw sw hw) as (hy' & af & ea & fa & na).
  { replace (Q2R (37464 # 100000)) with 0.37464 by q2r. replace (Q2R (154226 # 100000)) with 1.54226 by q2r. replace (Q2R (26992 # 100000)) with 0.26992 by q2r. exact hy. }
  replace (Q2R (37464 # 100000)) with 0.37464 in hy', na by q2r. replace (Q2R (154226 # 100000)) with 1.54226 in hy', na by q2r. replace (Q2R (26992 # 100000)) with 0.26992 in hy', na by q2r.
  fold y in hy', na. assert (hy2 : 1 / 4 <= y ^ 2 <= 12) by (clear - hy hy'; clearbody y; nra).
  pose proof (err_rel u hu (y ^ 2) af 4 ltac:(lra) fa na (mid_sized _ hy2) ltac:(lia)) as ra.
  destruct (parts (50 * u) allowed p (hu50 u hu) T P Tc Pc 100 hK0 oT oP oTc oPc (7780 # 100000) (45724 # 100000) 5 2 4 2 (y ^ 2) af ltac:(reflexivity) ltac:(reflexivity) ltac:(reflexivity) ltac:(reflexivity) ltac:(lia) ltac:(lia) ra ltac:(lia) ltac:(lia)) as (fl & nl & hr).
  replace (Q2R (7780 # 100000)) with 0.07780 in hr by q2r. replace (Q2R (45724 # 100000)) with 0.45724 in hr by q2r.
  destruct hr as (kb & nA & kA & h3 & hn & h4 & rb & rA). destruct (sigmas u allowed p hu hp hh) as (rt2 & er & fs & fe & ns & ne).
  fold t r in rb, rA. fold q in rA. set (b := 0.07780 * (r / t)) in *. set (Y := y ^ 2) in *. clearbody Y.
  assert (ek : q * b = k) by (unfold q, b, k; field; lra).
  assert (hb : 0 < b <= 1 / 2).
  { unfold b. split; [apply Rmult_lt_0_compat; [lra|apply Rdiv_lt_0_compat; assumption]|]. apply (Rmult_le_reg_r t); [exact ht|]. replace (0.07780 * (r / t) * t) with (0.07780 * r) by (field; lra). exact hbt. }
  assert (hq : 0.3 <= q). { unfold q. apply (Rmult_le_reg_r (0.07780 * t)); [lra|]. unfold Rdiv. rewrite Rmult_assoc, Rinv_l by lra. lra. }
  assert (hk' : 0 < q * b <= 1 / 5) by (rewrite ek; split; [rewrite <- ek; apply Rmult_lt_0_compat; lra|exact hk]).
  assert (hqk' : q * (q * b) <= 1 / 6) by (rewrite ek; exact hqk).
  assert (law : forall z, cubic b q z <-> compressibility (kwong_form 0.07780 (0.45724 * Y)) (SFR T) (SFR P) (SFR Tc) (SFR Pc) z).
  { intro z. apply form_iff; try assumption; lra. }
  pose proof sqrt2_range as h22. apply abs_le in ns. apply abs_le in ne.
  destruct (cubic_exists b q hb hk') as (z & hz & hz2). exists z. split; [exact (proj1 hz)|]. split; [apply law; assumption|]. split.
  - intros z' h'. apply law in h'. exact (cubic_unique b q hb hk' z z' hz2 h' (proj1 hz)).
  - intros n h0. rewrite (pr_float_call p T P Tc Pc w 100 oTc oPc tn pn "vapor" (n + 1) af rt2 ea ft nt er fl nl).
    match goal with |- context [solve_state "vapor" _ _ ?fl ?l ?bl _] =>
      destruct (peng_vapor (50 * u) p (hu50 u hu) b q _ _ _ _ kb kA nA hb hq hk' hqk' ltac:(lia) rb hn rA fs fe ltac:(lra) ltac:(lra) fl l bl z n hz2 hz h0) as (x & e1 & e2 & e3) end.
    exists x. split; [exact e1|]. split; [exact e2|]. apply Rle_trans with (1 := e3). rewrite ek. right. ring.
Qed.
