(** * EosFloatAlpha: Soave's and Peng and Robinson's alpha in binary64 *)
From Coq Require Import String List ZArith QArith Qcanon Bool Reals Qreals Lra Lia.
From Coq Require Import Floats.SpecFloat.
From Verif Require Import Py Num NumFacts UnitsData UnitsStruct Units Expr Rounding RoundSpec RoundFacts RoundErr RoundCases Range RangeSpec FloatExp FloatRound B64Facts RangeFacts B64Spec B64Full WaterFloatFacts Eos EosSpec EosFacts EosFoundSpec EosLiquid EosFloatSpec EosFloat EosFloatLiquid EosFloatCalls.
Local Open Scope string_scope.
Local Open Scope R_scope.
Local Notation p2 := (powerRZ 2).

(** ** In real numbers *)
Lemma err_mul a b a' b' ea eb : Rabs (a' - a) <= ea -> Rabs (b' - b) <= eb -> forall M N, Rabs b' <= M -> Rabs a <= N -> Rabs (a' * b' - a * b) <= ea * M + N * eb.
Proof.
  intros ha hb M N hM hN. replace (a' * b' - a * b) with ((a' - a) * b' + a * (b' - b)) by ring. apply Rle_trans with (1 := Rabs_triang _ _). rewrite !Rabs_mult.
  apply Rplus_le_compat; apply Rmult_le_compat; try apply Rabs_pos; assumption.
Qed.
Lemma mul_le a b M N : Rabs a <= M -> Rabs b <= N -> Rabs (a * b) <= M * N.
Proof. intros. rewrite Rabs_mult. apply Rmult_le_compat; try apply Rabs_pos; assumption. Qed.
Section Alpha.
Variables (u e : R).
Hypothesis hu : 0 < u <= / 1000000000000.
Hypothesis he : 0 <= e <= u / 1000.
Notation rd := (rd u e).
Variables (c0 c1 c2 w s k0 k1 k2 w2 sf : R).
Hypothesis h0 : 0 <= c0 <= 0.5.
Hypothesis h1 : 0 <= c1 <= 1.6.
Hypothesis h2 : 0 <= c2 <= 0.3.
Hypothesis hw : Rabs w <= 1.
Hypothesis hs : 0 <= s <= 2.
Hypothesis n0 : near1 u c0 k0.
Hypothesis n1 : near1 u c1 k1.
Hypothesis n2 : near1 u c2 k2.
Hypothesis nw : near1 u (w ^ 2) w2.
Hypothesis ns : Rabs (sf - s) <= 2.01 * u * s.
Definition am := c0 + c1 * w - c2 * w ^ 2.
Lemma w_sq : 0 <= w ^ 2 <= 1.
Proof. pose proof (abs_le _ _ hw). nra. Qed.
Lemma near_abs c k M : near1 u c k -> 0 <= c <= M -> Rabs (k - c) <= M * u.
Proof. intros h hc. apply Rle_trans with (1 := h). rewrite Rabs_pos_eq by lra. nra. Qed.
Lemma am_size : Rabs am <= 2.4.
Proof. pose proof w_sq. pose proof (abs_le _ _ (mul_le c1 w 1.6 1 ltac:(apply Rabs_le; lra) hw)). pose proof (abs_le _ _ (mul_le c2 (w ^ 2) 0.3 1 ltac:(apply Rabs_le; lra) ltac:(apply Rabs_le; lra))). unfold am. apply Rabs_le. lra. Qed.
Lemma a1_err : Rabs (k1 * w - c1 * w) <= 1.6 * u.
Proof. pose proof (err_mul c1 w k1 w (1.6 * u) 0 (near_abs _ _ _ n1 h1) ltac:(rewrite Rminus_eq_0, Rabs_R0; lra) 1 2 hw ltac:(apply Rabs_le; lra)). lra. Qed.
Lemma a1_size : Rabs (k1 * w) <= 1.61.
Proof. pose proof (abs_le _ _ a1_err). pose proof (abs_le _ _ (mul_le c1 w 1.6 1 ltac:(apply Rabs_le; lra) hw)). apply Rabs_le. lra. Qed.
Lemma w2_err : Rabs (w2 - w ^ 2) <= 1 * u.
Proof. exact (near_abs _ _ _ nw w_sq). Qed.
Lemma a2_err : Rabs (k2 * w2 - c2 * w ^ 2) <= 0.61 * u.
Proof. pose proof w_sq. pose proof (abs_le _ _ w2_err). pose proof (err_mul c2 (w ^ 2) k2 w2 _ _ (near_abs _ _ _ n2 h2) w2_err 1.01 0.3 ltac:(apply Rabs_le; lra) ltac:(apply Rabs_le; lra)). lra. Qed.
Lemma a2_size : Rabs (k2 * w2) <= 0.31.
Proof. pose proof w_sq. pose proof (abs_le _ _ a2_err). pose proof (abs_le _ _ (mul_le c2 (w ^ 2) 0.3 1 ltac:(apply Rabs_le; lra) ltac:(apply Rabs_le; lra))). apply Rabs_le. lra. Qed.
Variables s1 s2 : R.
Hypothesis r1 : rd (k1 * w) s1.
Hypothesis r2 : rd (k2 * w2) s2.
Lemma b1_err : Rabs (s1 - c1 * w) <= 3.22 * u.
Proof. pose proof (abs_le _ _ a1_err). pose proof (abs_le _ _ (rd_bound u e hu he _ _ _ r1 a1_size)). apply Rabs_le. lra. Qed.
Lemma b2_err : Rabs (s2 - c2 * w ^ 2) <= 0.93 * u.
Proof. pose proof (abs_le _ _ a2_err). pose proof (abs_le _ _ (rd_bound u e hu he _ _ _ r2 a2_size)). apply Rabs_le. lra. Qed.
Lemma a3_size : Rabs (k0 + s1) <= 2.11.
Proof. pose proof (abs_le _ _ (near_abs _ _ _ n0 h0)). pose proof (abs_le _ _ b1_err). pose proof (abs_le _ _ (mul_le c1 w 1.6 1 ltac:(apply Rabs_le; lra) hw)). apply Rabs_le. lra. Qed.
Variable s3 : R.
Hypothesis r3 : rd (k0 + s1) s3.
Lemma b3_err : Rabs (s3 - (c0 + c1 * w)) <= 5.84 * u.
Proof. pose proof (abs_le _ _ (near_abs _ _ _ n0 h0)). pose proof (abs_le _ _ b1_err). pose proof (abs_le _ _ (rd_bound u e hu he _ _ _ r3 a3_size)). apply Rabs_le. lra. Qed.
Lemma a4_size : Rabs (s3 - s2) <= 2.41.
Proof. pose proof (abs_le _ _ am_size) as h. unfold am in h. pose proof (abs_le _ _ b3_err). pose proof (abs_le _ _ b2_err). apply Rabs_le. lra. Qed.
Variable s4 : R.
Hypothesis r4 : rd (s3 - s2) s4.
Lemma b4_err : Rabs (s4 - am) <= 9.2 * u.
Proof. pose proof (abs_le _ _ b3_err). pose proof (abs_le _ _ b2_err). pose proof (abs_le _ _ (rd_bound u e hu he _ _ _ r4 a4_size)). unfold am. apply Rabs_le. lra. Qed.
Lemma sf_err : Rabs (sf - s) <= 4.02 * u.
Proof. apply Rle_trans with (1 := ns). nra. Qed.
Lemma a5_size : Rabs (1 - sf) <= 1.01.
Proof. pose proof (abs_le _ _ sf_err). apply Rabs_le. lra. Qed.
Variable s5 : R.
Hypothesis r5 : rd (1 - sf) s5.
Lemma b5_err : Rabs (s5 - (1 - s)) <= 5.04 * u.
Proof. pose proof (abs_le _ _ sf_err). pose proof (abs_le _ _ (rd_bound u e hu he _ _ _ r5 a5_size)). apply Rabs_le. lra. Qed.
Lemma a6_err : Rabs (s4 * s5 - am * (1 - s)) <= 21.4 * u.
Proof. pose proof (abs_le _ _ b5_err). pose proof (err_mul am (1 - s) s4 s5 _ _ b4_err b5_err 1.001 2.4 ltac:(apply Rabs_le; lra) am_size). lra. Qed.
Lemma a6_size : Rabs (s4 * s5) <= 2.41.
Proof. pose proof (abs_le _ _ a6_err). pose proof (abs_le _ _ (mul_le am (1 - s) 2.4 1 am_size ltac:(apply Rabs_le; lra))). apply Rabs_le. lra. Qed.
Variable s6 : R.
Hypothesis r6 : rd (s4 * s5) s6.
Lemma b6_err : Rabs (s6 - am * (1 - s)) <= 23.9 * u.
Proof. pose proof (abs_le _ _ a6_err). pose proof (abs_le _ _ (rd_bound u e hu he _ _ _ r6 a6_size)). apply Rabs_le. lra. Qed.
Let y := 1 + am * (1 - s).
Lemma a7_size : Rabs (1 + s6) <= 3.41.
Proof. pose proof (abs_le _ _ b6_err). pose proof (abs_le _ _ (mul_le am (1 - s) 2.4 1 am_size ltac:(apply Rabs_le; lra))). apply Rabs_le. lra. Qed.
Hypothesis hy : 1 / 2 <= y.
Variable s7 : R.
Hypothesis r7 : rd (1 + s6) s7.
Lemma y_size : y <= 3.4.
Proof. pose proof (abs_le _ _ (mul_le am (1 - s) 2.4 1 am_size ltac:(apply Rabs_le; lra))). unfold y. lra. Qed.
Lemma b7_err : Rabs (s7 - y) <= 48.9 * u * y.
Proof.
  pose proof (abs_le _ _ b6_err) as g6. assert (hz : Rabs (1 + s6) <= 1.001 * y) by (unfold y in *; apply Rabs_le; lra).
  pose proof (abs_le _ _ (rd_bound u e hu he _ _ _ r7 hz)) as g7. assert (g8 : 1 + s6 - y = s6 - am * (1 - s)) by (unfold y; ring). assert (g9 : u * 1 <= u * (2 * y)) by (apply Rmult_le_compat_l; lra).
  clearbody y. apply Rabs_le. nra.
Qed.
Variable s8 : R.
Hypothesis r8 : near1 u (s7 ^ 2) s8.
Lemma b8_err : 0.999 * y ^ 2 <= s7 ^ 2 <= 1.001 * y ^ 2 /\ Rabs (s8 - y ^ 2) <= 99 * u * y ^ 2.
Proof.
  pose proof (abs_le _ _ b7_err) as g. clearbody y. assert (hy0 : 0 < y) by lra. set (d := (s7 - y) / y). assert (ed : s7 = y * (1 + d)) by (unfold d; field; lra).
  assert (hd : - (48.9 * u) <= d <= 48.9 * u). { unfold d. split; apply (Rmult_le_reg_r y); try exact hy0; unfold Rdiv; rewrite Rmult_assoc, Rinv_l by lra; lra. }
  assert (hdd : 0 <= d * d <= 0.001 * u) by nra. assert (e2 : s7 ^ 2 = y ^ 2 * (1 + (2 * d + d * d))) by (rewrite ed; ring).
  assert (hy2 : 0 < y ^ 2) by nra. set (D := 2 * d + d * d) in *. assert (hD : - (97.8 * u) <= D <= 97.81 * u) by (unfold D; lra). clearbody D.
  assert (a : 0.999 * y ^ 2 <= s7 ^ 2 <= 1.001 * y ^ 2) by (rewrite e2; nra). split; [exact a|].
  unfold near1 in r8. rewrite (Rabs_pos_eq (s7 ^ 2)) in r8 by lra. pose proof (abs_le _ _ r8) as g8. assert (u * s7 ^ 2 <= u * (1.001 * y ^ 2)) by (apply Rmult_le_compat_l; lra).
  assert (hq : Rabs (s7 ^ 2 - y ^ 2) <= 97.81 * u * y ^ 2). { rewrite e2. replace (y ^ 2 * (1 + D) - y ^ 2) with (D * y ^ 2) by ring. rewrite Rabs_mult, (Rabs_pos_eq (y ^ 2)) by lra. apply Rmult_le_compat_r; [lra|]. apply Rabs_le. lra. }
  apply abs_le in hq. apply Rabs_le. lra.
Qed.
End Alpha.

(** ** In binary64 *)
Definition lit_ok (c : Q) : Prop := (lit_size c <= 1000)%Z /\ Qeq_bool c 0 = false.
Section Float.
Variables (u : R) (allowed : Qc -> bool) (p : spec_float -> Qc -> res spec_float).
Hypothesis hu : / 2 ^ 53 <= u <= / 2 ^ 40.
Hypothesis hp : pow_good u allowed p.
Hypothesis hh : allowed (ev e_half) = true.
Hypothesis h2 : allowed (ev (eint 2)) = true.
Notation B := (Bpow p).
Notation e := (p2 (-1075)).
Let us := u_small u hu.
Let te := tiny u (proj1 hu).
Lemma lit_near c : lit_ok c -> finite64 (f_lit c) /\ near1 u (Q2R c) (SFR (f_lit c)).
Proof.
  intros [a b]. destruct (f_lit_near c a b) as (f & n & _). split; [exact f|]. apply Rle_trans with (1 := n). apply Rmult_le_compat_r; [apply Rabs_pos|apply hu].
Qed.
Lemma square x : finite64 x -> sized 1010 (SFR x ^ 2) -> exists y, p x (ev (eint 2)) = Ok y /\ finite64 y /\ near1 u (SFR x ^ 2) (SFR y).
Proof.
  intros fx hs. pose proof (hp x (ev (eint 2)) fx h2) as h. pose proof (sq_pow (SFR x)) as hm. unfold py_pow in hm. cbn [npow Rnum] in hm.
  destruct (Rpowq (SFR x) (ev (eint 2))) as [v|]; [|discriminate hm]. unfold rmap in hm. cbn [bind] in hm. injection hm as ->. exact (h hs).
Qed.
Lemma root n k x y : rel u true x y (Some (n, k)) -> (n <= 1)%nat -> (0 <= k <= 1000)%Z -> exists r, p y (ev e_half) = Ok r /\ finite64 r /\ Rabs (SFR r - sqrt x) <= 2.01 * u * sqrt x.
Proof.
  intros hr hn hk. pose proof (r_pow u allowed p hu hp true (ev e_half) _ _ _ hr) as h. cbn [npow Snum Rnum Bpow] in h. rewrite hh in h.
  change (repeats (ev e_half)) with 1%nat in h. change (Z.of_nat 1) with 1%Z in h. rewrite Z.mul_1_l, Nat.mul_1_l, guard_ok in h by lia.
  destruct (rel_nz u hu _ _ _ hr) as (_ & _ & ht). pose proof (half_pow x ht) as hm. unfold py_pow in hm. cbn [npow Rnum] in hm.
  destruct (Rpowq x (ev e_half)) as [v|]; [|discriminate hm]. unfold rmap in hm. cbn [bind] in hm. injection hm as ->.
  inversion h as [a b c hv e1 e2 e3| |]. exists b. split; [symmetry; exact e2|]. destruct (rel_err u hu _ _ _ _ hv ltac:(lia)) as [f g]. split; [exact f|].
  apply Rle_trans with (1 := g). apply Rmult_le_compat_r; [apply sqrt_pos|]. apply Rmult_le_compat_r; [apply Rlt_le, us|]. apply Rle_trans with (INR 2 + 0.01); [apply Rplus_le_compat_r, le_INR; lia|cbn; lra].
Qed.
(** The power 2 of a number between 2^-100 and 1. *)
Lemma sq_sized x : sized 100 x -> sized 1010 (x ^ 2).
Proof. intro h. cbn [pow]. rewrite Rmult_1_r. apply (sized_mono (100 + 100)); [lia|]. apply sized_mul; exact h. Qed.
Lemma mid_sized y : 1 / 4 <= y <= 12 -> sized 4 y.
Proof. intro h. right. rewrite Rabs_pos_eq by lra. change (p2 (- (4))) with (/ (2 * (2 * (2 * (2 * 1))))). change (p2 4) with (2 * (2 * (2 * (2 * 1)))). lra. Qed.
Lemma alpha64 c0 c1 c2 n k (t : R) (tf w : spec_float) : lit_ok c0 -> lit_ok c1 -> lit_ok c2 -> 0 <= Q2R c0 <= 0.5 -> 0 <= Q2R c1 <= 1.6 -> 0 <= Q2R c2 <= 0.3 ->
  rel u true t tf (Some (n, k)) -> (n <= 1)%nat -> (0 <= k <= 1000)%Z -> t <= 4 ->
  finite64 w -> sized 100 (SFR w) -> Rabs (SFR w) <= 1 ->
  let y := 1 + (Q2R c0 + Q2R c1 * SFR w - Q2R c2 * SFR w ^ 2) * (1 - sqrt t) in 1 / 2 <= y ->
  y <= 3.4 /\ exists a, @soave_alpha spec_float B c0 c1 c2 (VNum w) (VNum tf) = Ok (VNum a) /\ finite64 a /\ Rabs (SFR a - y ^ 2) <= 99 * u * y ^ 2.
Proof.
  intros k0 k1 k2 i0 i1 i2 ht hn hk t4 fw sw hw y hy. destruct (lit_near _ k0) as [f0 n0]. destruct (lit_near _ k1) as [f1 n1]. destruct (lit_near _ k2) as [f2 n2].
  destruct b_one as [fo eo]. destruct (square w fw (sq_sized _ sw)) as (w2 & e2 & fw2 & nw). destruct (root _ _ _ _ ht hn hk) as (r & er & fr & nr).
  destruct (rel_nz u hu _ _ _ ht) as (_ & _ & t0).
  assert (hs : 0 <= sqrt t <= 2). { split; [apply sqrt_pos|]. replace 2 with (sqrt 4) by (replace 4 with (2 * 2) by ring; apply sqrt_square; lra). apply sqrt_le_1_alt, t4. }
  set (s := sqrt t) in *. pose proof us as us'. pose proof te as te'.
  destruct (rounds u hu _ _ 1.61 (mul_full _ _ f1 fw) ltac:(eapply a1_size; eassumption) ltac:(lra)) as [g1 r1]. set (s1 := SFmul 53 1024 (f_lit c1) w) in *.
  destruct (rounds u hu _ _ 0.31 (mul_full _ _ f2 fw2) ltac:(eapply a2_size; eassumption) ltac:(lra)) as [g2 r2]. set (s2 := SFmul 53 1024 (f_lit c2) w2) in *.
  destruct (rounds u hu _ _ 2.11 (add_full _ _ f0 g1) ltac:(eapply a3_size; eassumption) ltac:(lra)) as [g3 r3]. set (s3 := SFadd 53 1024 (f_lit c0) s1) in *.
  destruct (rounds u hu _ _ 2.41 (sub_full _ _ g3 g2) ltac:(eapply a4_size; eassumption) ltac:(lra)) as [g4 r4]. set (s4 := SFsub 53 1024 s3 s2) in *.
  pose proof (sub_full _ _ fo fr) as o5. rewrite eo in o5.
  destruct (rounds u hu _ _ 1.01 o5 ltac:(eapply a5_size; eassumption) ltac:(lra)) as [g5 r5]. set (s5 := SFsub 53 1024 (f_lit 1) r) in *.
  destruct (rounds u hu _ _ 2.41 (mul_full _ _ g4 g5) ltac:(eapply a6_size; eassumption) ltac:(lra)) as [g6 r6]. set (s6 := SFmul 53 1024 s4 s5) in *.
  pose proof (add_full _ _ fo g6) as o7. rewrite eo in o7.
  destruct (rounds u hu _ _ 3.41 o7 ltac:(eapply a7_size; eassumption) ltac:(lra)) as [g7 r7]. set (s7 := SFadd 53 1024 (f_lit 1) s6) in *.
  set (m := am (Q2R c0) (Q2R c1) (Q2R c2) (SFR w)). assert (hy2 : 1 / 2 <= 1 + m * (1 - s)) by exact hy. change y with (1 + m * (1 - s)) in *.
  assert (hy' : 1 + m * (1 - s) <= 3.4) by (eapply y_size; eassumption).
  assert (g : Rabs (SFR s7 - (1 + m * (1 - s))) <= 48.9 * u * (1 + m * (1 - s))) by (eapply b7_err; eassumption).
  assert (hz : 0.49 <= SFR s7 <= 3.41). { apply abs_le in g. set (Y := 1 + m * (1 - s)) in *. clearbody Y. clear - hy2 hy' g us'. nra. }
  destruct (square s7 g7) as (a & ea & fa & na).
  { apply sq_sized, (sized_mono 2); [lia|]. right. rewrite Rabs_pos_eq by lra. change (p2 (- (2))) with (/ (2 * (2 * 1))). change (p2 2) with (2 * (2 * 1)). lra. }
  split; [exact hy'|]. exists a. split; [|split; [exact fa|]].
  - unfold soave_alpha, lift2, num, py_pow. cbn [bind nq npow Bpow]. rewrite e2, er. unfold rmap. cbn [bind]. rewrite !b_mul. cbn [bind]. rewrite b_add, b_sub. cbn [bind].
    fold s1 s2 s3 s5. rewrite b_sub. cbn [bind]. fold s4. rewrite b_mul. cbn [bind]. fold s6. rewrite b_add. cbn [bind]. fold s7. rewrite ea. reflexivity.
  - eapply b8_err; eassumption.
Qed.
End Float.
