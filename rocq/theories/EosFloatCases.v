(** * EosFloatCases: a power function accurate for square roots, and a case *)
From Coq Require Import String List ZArith QArith Qcanon Bool Reals Qreals Lra Lia.
From Coq Require Import Floats.SpecFloat.
From Verif Require Import Py Num NumFacts UnitsData UnitsStruct Units Expr Rounding RoundSpec RoundFacts RoundErr RoundCases Range RangeSpec FloatExp FloatRound B64Facts RangeFacts RangeCases B64Spec B64Round B64Full WaterFloatFacts Eos EosSpec EosFacts EosFloatSpec EosFloat.
Import ListNotations.
Local Open Scope string_scope.
Local Open Scope list_scope.
Local Open Scope R_scope.
Local Notation p2 := (powerRZ 2).

(** 1 / sqrt (m 2^e), by the integer square root. *)
Definition f_rsqrt (m : BinNums.positive) (e : Z) : spec_float :=
  let m2 := if Z.even e then Zpos m else (2 * Zpos m)%Z in
  let h := if Z.even e then (e / 2)%Z else ((e - 1) / 2)%Z in
  binary_normalize 53 1024 (Z.sqrt (2 ^ 400 / m2)) (- 200 - h) false.
Definition mhalf : Qc := ev e_mhalf.
Definition root_pow (x : spec_float) (q : Qc) : res spec_float :=
  if Qc_eq_bool q mhalf then
    match x with
    | S754_zero _ => Raise EZeroDivisionError
    | S754_finite false m e => Ok (f_rsqrt m e)
    | _ => Raise Unmodelled
    end
  else f_pow x q.
Definition root_allowed (q : Qc) : bool := is_int q || Qc_eq_bool q mhalf.

Lemma rsqrt_split m e : exists m2 h, f_rsqrt m e = binary_normalize 53 1024 (Z.sqrt (2 ^ 400 / m2)) (- 200 - h) false /\
  (Zpos m <= m2 <= 2 * Zpos m)%Z /\ IZR (Zpos m) * p2 e = IZR m2 * (p2 h * p2 h).
Proof.
  unfold f_rsqrt. destruct (Z.even e) eqn:ev; eexists _, _; (split; [reflexivity|]); (split; [lia|]); rewrite <- p2_add.
  - f_equal. f_equal. apply Z.even_spec in ev. destruct ev as [k ->]. replace (2 * k / 2)%Z with k; [lia|]. rewrite Z.mul_comm, Z.div_mul by lia. reflexivity.
  - assert (od : Z.odd e = true) by (rewrite <- Z.negb_even, ev; reflexivity). apply Z.odd_spec in od. destruct od as [k ->].
    replace ((2 * k + 1 - 1) / 2)%Z with k by (replace (2 * k + 1 - 1)%Z with (k * 2)%Z by lia; rewrite Z.div_mul by lia; reflexivity).
    rewrite mult_IZR. replace (2 * k + 1)%Z with (k + k + 1)%Z by lia. rewrite (p2_add (k + k) 1), p2_1. ring.
Qed.
Lemma sqrt_bits m2 : (0 < m2 <= 2 ^ 54)%Z -> let N := Z.sqrt (2 ^ 400 / m2) in
  (2 ^ 100 <= N)%Z /\ IZR N * IZR N * IZR m2 <= p2 400 < (IZR N + 1) * (IZR N + 1) * IZR m2.
Proof.
  intros hm N. set (D := (2 ^ 400 / m2)%Z). assert (hD : (2 ^ 200 <= D)%Z).
  { apply Z.div_le_lower_bound; [lia|]. apply Z.le_trans with (2 ^ 54 * 2 ^ 200)%Z; [apply Z.mul_le_mono_nonneg_r; [discriminate|apply hm]|]. vm_compute. discriminate. }
  assert (hD0 : (0 <= D)%Z) by (apply Z.le_trans with (2 ^ 200)%Z; [discriminate|exact hD]).
  pose proof (Z.sqrt_spec D hD0) as hN. change (Z.sqrt D) with N in hN. assert (h100 : (2 ^ 100 <= N)%Z).
  { change (2 ^ 100)%Z with (Z.sqrt (2 ^ 200)). apply Z.sqrt_le_mono, hD. }
  split; [exact h100|]. pose proof (Z.div_mod (2 ^ 400) m2 ltac:(lia)) as dm. pose proof (Z.mod_pos_bound (2 ^ 400) m2 ltac:(lia)) as mb. fold D in dm.
  change (p2 400) with (2 ^ 400)%R. rewrite (pow_IZR 2 400). change (Z.of_nat 400) with 400%Z. rewrite <- plus_IZR, <- !mult_IZR. split; [apply IZR_le|apply IZR_lt]; generalize dependent (2 ^ 400 mod m2)%Z; intros r dm mb; rewrite dm; clearbody D N; clear dm.
  - apply Z.le_trans with (D * m2)%Z; [apply Z.mul_le_mono_nonneg_r; [lia|exact (proj1 hN)]|lia].
  - apply Z.lt_le_trans with ((D + 1) * m2)%Z; [lia|]. apply Z.mul_le_mono_nonneg_r; [lia|]. apply Zlt_le_succ. exact (proj2 hN).
Qed.
Lemma root_near m e : finite64 (S754_finite false m e) -> let v := / sqrt (SFR (S754_finite false m e)) in sized 1010 v ->
  finite64 (f_rsqrt m e) /\ near1 (/ 2 ^ 52) v (SFR (f_rsqrt m e)).
Proof.
  intros hf v hs. destruct (rsqrt_split m e) as (m2 & h & -> & hm & em).
  assert (hd : (Zpos m < 2 ^ 53)%Z). { cbn [finite64] in hf. destruct (bounded_cases _ _ hf). lia. }
  destruct (sqrt_bits m2 ltac:(lia)) as (hN & hl & hr). set (N := Z.sqrt (2 ^ 400 / m2)) in *. set (g := p2 (-200 - h)). pose proof (p2_gt (-200 - h)) as hg. fold g in hg.
  assert (hM : 0 < IZR m2) by (apply IZR_lt; lia). assert (hN' : p2 100 <= IZR N). { change (p2 100) with (2 ^ 100)%R. rewrite (pow_IZR 2 100). apply IZR_le, hN. }
  assert (h100 : 1 <= p2 100) by (change 1 with (p2 0); apply p2_le; lia).
  assert (hS : 0 < SFR (S754_finite false m e)) by (cbn [SFR]; rewrite Rmult_1_l; apply pos_mant).
  assert (hv : 0 < v) by (apply Rinv_0_lt_compat, sqrt_lt_R0, hS).
  assert (hv2 : v * v * (IZR m2 * p2 400) * (g * g) = 1 * (g * g * p2 400 * (IZR m2 * (v * v)))) by ring.
  assert (hvv : v * v * (IZR m2 * (p2 h * p2 h)) = 1).
  { rewrite <- em. unfold v. replace (IZR (Zpos m) * p2 e) with (SFR (S754_finite false m e)) by (cbn [SFR]; ring). rewrite <- Rinv_mult, sqrt_sqrt by lra. apply Rinv_l. lra. }
  assert (gg : g * g * (p2 h * p2 h) * p2 400 = 1). { unfold g. rewrite <- !p2_add. replace (-200 - h + (-200 - h) + (h + h) + 400)%Z with 0%Z by lia. reflexivity. }
  assert (vv : v * v * IZR m2 = g * g * p2 400).
  { pose proof (p2_gt h) as ph. apply (Rmult_eq_reg_r (p2 h * p2 h)); [|nra]. lra. }
  assert (low : IZR N * g <= v).
  { apply Rsqr_incr_0_var; [|lra]. unfold Rsqr. apply (Rmult_le_reg_r (IZR m2)); [exact hM|]. rewrite vv. apply (Rmult_le_compat_l (g * g)) in hl; [|nra]. lra. }
  assert (high : v <= (IZR N + 1) * g).
  { apply Rsqr_incr_0_var; [|apply Rmult_le_pos; lra]. unfold Rsqr. apply (Rmult_le_reg_r (IZR m2)); [exact hM|]. rewrite vv. apply Rlt_le in hr. apply (Rmult_le_compat_l (g * g)) in hr; [|nra]. lra. }
  assert (small : g <= p2 (-100) * v).
  { apply Rle_trans with (p2 (-100) * (IZR N * g)); [|apply Rmult_le_compat_l; [apply Rlt_le, p2_gt|exact low]].
    apply Rle_trans with (p2 (-100) * (p2 100 * g)); [right; rewrite <- Rmult_assoc, <- p2_add; change (p2 (-100 + 100)) with 1; ring|].
    apply Rmult_le_compat_l; [apply Rlt_le, p2_gt|]. apply Rmult_le_compat_r; lra. }
  assert (s100 : p2 (-100) <= / 2 ^ 60) by (change (/ 2 ^ 60) with (p2 (-60)); apply p2_le; lia).
  assert (t60 : / 2 ^ 60 <= / 1000) by (apply Rinv_le_contravar; [lra|]; rewrite (pow_IZR 2 60); apply IZR_le; vm_compute; discriminate).
  assert (gv' : p2 (-100) * v <= / 2 ^ 60 * v) by (apply Rmult_le_compat_r; lra).
  assert (t60' : / 2 ^ 60 * v <= / 1000 * v) by (apply Rmult_le_compat_r; lra).
  destruct (normalize N (-200 - h) false) as (f1 & f2 & _).
  - right. fold g. unfold mid. assert (hw : v * / 2 <= IZR N * g) by lra. destruct hs as [hs|hs]; [lra|]. rewrite (Rabs_pos_eq v) in hs by lra. change (- (1010))%Z with (-1010)%Z in hs. rewrite Rabs_pos_eq by nra. split.
    + apply Rle_trans with (p2 (-1010) * / 2); [|lra]. apply Rle_trans with (p2 (-1011)); [apply p2_le; lia|]. right. replace (-1011)%Z with (-1010 + -1)%Z by lia. rewrite p2_add. change (p2 (-1)) with (/ (2 * 1)). f_equal. lra.
    + apply Rle_trans with v; [lra|]. apply Rle_trans with (1 := proj2 hs). apply p2_le. lia.
  - split; [exact f1|]. fold g in f2. unfold near1 in *. rewrite (Rabs_pos_eq v) by lra. rewrite (Rabs_pos_eq (IZR N * g)) in f2 by nra. apply Rabs_le_inv in f2.
    assert (p53 : 0 < / 2 ^ 53) by (apply Rinv_0_lt_compat, pow_lt; lra). assert (e52 : / 2 ^ 52 = / 2 ^ 53 + / 2 ^ 53) by (change (2 ^ 53)%R with (2 * 2 ^ 52)%R; field; apply pow_nonzero; lra).
    assert (e60 : / 2 ^ 60 <= / 2 ^ 53) by (apply Rinv_le_contravar; [apply pow_lt; lra|]; apply Rle_pow; [lra|lia]).
    assert (a1 : / 2 ^ 53 * (IZR N * g) <= / 2 ^ 53 * v) by (apply Rmult_le_compat_l; lra). assert (a2 : / 2 ^ 60 * v <= / 2 ^ 53 * v) by (apply Rmult_le_compat_r; lra).
    apply Rabs_le. rewrite e52. lra.
Qed.
Lemma near_weaken x y : near1 (/ 2 ^ 53) x y -> near1 (/ 2 ^ 52) x y.
Proof. unfold near1. intro h. apply Rle_trans with (1 := h). apply Rmult_le_compat_r; [apply Rabs_pos|]. apply Rinv_le_contravar; [apply pow_lt; lra|]. apply Rle_pow; [lra|lia]. Qed.
Lemma root_good : pow_good (/ 2 ^ 52) root_allowed root_pow.
Proof.
  intros y q hy hq. unfold root_allowed in hq. unfold root_pow. destruct (Qc_eq_bool q mhalf) eqn:eq.
  - apply Qc_eq_bool_correct in eq. subst q. destruct y as [s|s| |s m e]; try contradiction.
    + cbn [SFR]. unfold Rpowq. replace (is_int mhalf) with false by reflexivity. unfold Rltb. destruct (Rlt_dec 0 0); [lra|]. rewrite Reqb_yes by reflexivity. reflexivity.
    + destruct s.
      * assert (h : SFR (S754_finite true m e) < 0) by (pose proof (pos_mant m e); cbn [SFR]; lra). unfold Rpowq. replace (is_int mhalf) with false by reflexivity.
        unfold Rltb. destruct (Rlt_dec 0 (SFR (S754_finite true m e))); [lra|]. rewrite Reqb_no by lra. reflexivity.
      * assert (h : 0 < SFR (S754_finite false m e)) by (pose proof (pos_mant m e); cbn [SFR]; lra).
        pose proof (mhalf_pow _ h) as hm. unfold py_pow in hm. cbn [npow Rnum] in hm. fold mhalf in hm.
        destruct (Rpowq (SFR (S754_finite false m e)) mhalf) as [v|]; [|discriminate hm]. unfold rmap in hm. cbn [bind] in hm. injection hm as ->.
        intro hs. destruct (root_near m e hy hs) as [f g]. exists (f_rsqrt m e). auto.
  - rewrite orb_false_r in hq. pose proof (f_pow_good y q hy hq) as h. destruct (Rpowq (SFR y) q) as [v|x]; [|exact h]. intro hs. destruct (h hs) as (w & h1 & h2 & h3). exists w. split; [exact h1|]. split; [exact h2|apply near_weaken, h3].
Qed.

(** Water at 500 K and 100 kPa. *)
Definition water (st : string) (n : Z) : res (pyval spec_float) :=
  @rendlich_kwong spec_float (Bpow root_pow) (temp64 "K" (f_int 500)) (pres64 "kPa" (f_int 100)) (temp64 "K" (f_int 647)) (pres64 "kPa" (f_int 22064)) st n.
Lemma int_ordinary k z : (20 <= k)%Z -> (1 <= z <= 2 ^ 20)%Z -> ordinary k (f_int z).
Proof.
  intros hk hz. destruct (f_int_small z ltac:(change (2 ^ 53)%Z with 9007199254740992%Z; change (2 ^ 20)%Z with 1048576%Z in hz; lia)) as [f e]. split; [exact f|]. rewrite e. split.
  - apply Rle_trans with (p2 0); [apply p2_le; lia|]. change (p2 0) with 1. apply IZR_le. lia.
  - apply Rle_trans with (p2 20); [|apply p2_le; lia]. change (p2 20) with (2 ^ 20)%R. rewrite (pow_IZR 2 20). apply IZR_le, hz.
Qed.
Lemma water_float : (forall z, In z [500; 100; 647; 22064]%Z -> ordinary 50 (f_int z) /\ SFR (f_int z) = IZR z).
Proof.
  intros z hz. assert (h : (1 <= z <= 2 ^ 20)%Z) by (cbn in hz; change (2 ^ 20)%Z with 1048576%Z; lia). split; [apply int_ordinary; [lia|exact h]|].
  apply f_int_small. change (2 ^ 53)%Z with 9007199254740992%Z. change (2 ^ 20)%Z with 1048576%Z in h. lia.
Qed.
Lemma water_runs : water "vapor" 10 = Ok (VNum (S754_finite false 8978463918298964 (-53))) /\ water "liquid" 10 = Ok (VNum (S754_finite false 7197464947945051 (-63))).
Proof. split; vm_compute; reflexivity. Qed.
Lemma water_gas : 0.08664 * (100 / 22064) <= 1 / 2 * (500 / 647) /\ 0.42748 * (100 / 22064) / ((500 / 647) ^ 2 * sqrt (500 / 647)) <= 1 / 5.
Proof.
  split; [lra|]. assert (h : 500 / 647 <= sqrt (500 / 647)). { pose proof (sqrt_sqrt (500 / 647) ltac:(lra)) as e. pose proof (sqrt_pos (500 / 647)). nra. }
  assert (hp : 0.4 <= (500 / 647) ^ 2 * sqrt (500 / 647)) by nra. apply (Rmult_le_reg_r ((500 / 647) ^ 2 * sqrt (500 / 647))); [lra|]. unfold Rdiv at 1. rewrite Rmult_assoc, Rinv_l by lra. lra.
Qed.
Lemma water_cold : 6 <= 0.42748 / sqrt (500 / 647) / (0.08664 * (500 / 647)) /\ 0.08664 * (100 / 22064 / (500 / 647)) <= 8 / 11.
Proof.
  split; [|lra]. assert (h : 0 < sqrt (500 / 647) <= 1). { split; [apply sqrt_lt_R0; lra|]. rewrite <- sqrt_1. apply sqrt_le_1_alt. lra. }
  set (s := sqrt (500 / 647)) in *. apply (Rmult_le_reg_r (s * (0.08664 * (500 / 647)))); [nra|]. replace (0.42748 / s / (0.08664 * (500 / 647)) * (s * (0.08664 * (500 / 647)))) with 0.42748 by (field; lra). nra.
Qed.
