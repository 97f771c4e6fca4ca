(** * EosFloatHalves: a power function accurate for square roots and their inverses, and a case *)
From Coq Require Import String List ZArith QArith Qcanon Bool Reals Qreals Lra Lia.
From Coq Require Import Floats.SpecFloat.
From Verif Require Import Py Num NumFacts UnitsData UnitsStruct Units Expr Rounding RoundSpec RoundFacts RoundErr RoundCases Range RangeSpec FloatExp FloatRound B64Facts RangeFacts RangeCases B64Spec B64Round B64Full WaterFloatFacts Eos EosSpec EosFacts EosFloatSpec EosFloat EosFloatCases.
Import ListNotations.
Local Open Scope string_scope.
Local Open Scope list_scope.
Local Open Scope R_scope.
Local Notation p2 := (powerRZ 2).

Definition phalf : Qc := ev e_half.
(** sqrt x is 1 / sqrt x times x. *)
Definition halves_pow (x : spec_float) (q : Qc) : res spec_float :=
  if Qc_eq_bool q phalf then
    match x with
    | S754_zero _ => Ok (S754_zero false)
    | S754_finite false m e => Ok (SFmul 53 1024 (f_rsqrt m e) x)
    | _ => Raise Unmodelled
    end
  else root_pow x q.
Definition halves_allowed (q : Qc) : bool := root_allowed q || Qc_eq_bool q phalf.

Lemma half_near m e : finite64 (S754_finite false m e) -> let x := S754_finite false m e in sized 1010 (sqrt (SFR x)) ->
  finite64 (SFmul 53 1024 (f_rsqrt m e) x) /\ near1 (/ 2 ^ 51) (sqrt (SFR x)) (SFR (SFmul 53 1024 (f_rsqrt m e) x)).
Proof.
  intros hf x hs. assert (hx : 0 < SFR x) by (pose proof (pos_mant m e); unfold x; cbn [SFR]; lra).
  pose proof (sqrt_lt_R0 _ hx) as hv. pose proof (sqrt_sqrt (SFR x) ltac:(lra)) as hvv. set (v := sqrt (SFR x)) in *.
  destruct (root_near m e hf) as [f1 n1]. { apply sized_inv; [fold x v; lra|exact hs]. } fold x v in n1. set (r := f_rsqrt m e) in *.
  assert (p53 : 0 < / 2 ^ 53) by (apply Rinv_0_lt_compat, pow_lt; lra).
  assert (e52 : / 2 ^ 52 = 2 * / 2 ^ 53) by (change (2 ^ 53)%R with (2 * 2 ^ 52)%R; field; apply pow_nonzero; lra).
  assert (e51 : / 2 ^ 51 = 4 * / 2 ^ 53) by (change (2 ^ 53)%R with (2 * (2 * 2 ^ 51))%R; field; apply pow_nonzero; lra).
  assert (s53 : / 2 ^ 53 <= / 1000) by (apply Rinv_le_contravar; [lra|]; rewrite (pow_IZR 2 53); apply IZR_le; vm_compute; discriminate).
  unfold near1 in n1. rewrite (Rabs_pos_eq (/ v)) in n1 by (left; apply Rinv_0_lt_compat, hv). set (d := / 2 ^ 53) in *. rewrite e52 in n1.
  assert (n2 : Rabs (SFR r * SFR x - v) <= 2 * d * v).
  { replace (SFR r * SFR x - v) with (SFR x * (SFR r - / v)) by (rewrite <- hvv; field; lra). rewrite Rabs_mult, (Rabs_pos_eq (SFR x)) by lra.
    apply Rle_trans with (SFR x * (2 * d * / v)); [apply Rmult_le_compat_l; [lra|exact n1]|]. right. rewrite <- hvv. field. lra. }
  apply abs_le in n2. assert (hm : 0.9 * v <= SFR r * SFR x <= 1.1 * v) by nra.
  destruct (mul_near r x f1 hf) as [g1 g2].
  - intros _. apply abs_le in n1. pose proof (sized_inv 1010 v ltac:(lra) hs) as hi. destruct hi as [hi|[hi _]]; [pose proof (Rinv_0_lt_compat v hv); lra|]. pose proof (Rinv_0_lt_compat v hv) as iv. rewrite (Rabs_pos_eq (/ v)) in hi by lra. set (i := / v) in *. clearbody i. assert (0.9 * i <= SFR r) by nra. rewrite Rabs_pos_eq by lra.
    change (- (1010))%Z with (-1010)%Z in hi. apply Rle_trans with (p2 (-1010) * / 2); [|lra]. apply Rle_trans with (p2 (-1011)); [apply p2_le; lia|]. right. replace (-1011)%Z with (-1010 + -1)%Z by lia. rewrite p2_add. change (p2 (-1)) with (/ (2 * 1)). f_equal. lra.
  - unfold mid. destruct hs as [hs|hs]; [lra|]. rewrite (Rabs_pos_eq v) in hs by lra. right. rewrite Rabs_pos_eq by lra. change (- (1010))%Z with (-1010)%Z in hs. split.
    + apply Rle_trans with (p2 (-1010) * / 2); [|lra]. apply Rle_trans with (p2 (-1011)); [apply p2_le; lia|]. right. replace (-1011)%Z with (-1010 + -1)%Z by lia. rewrite p2_add. change (p2 (-1)) with (/ (2 * 1)). f_equal. lra.
    + apply Rle_trans with (p2 1010 * 2); [lra|]. apply Rle_trans with (p2 1011); [|apply p2_le; lia]. right. replace 1011%Z with (1010 + 1)%Z by lia. rewrite p2_add, p2_1. ring.
  - split; [exact g1|]. unfold near1 in *. rewrite (Rabs_pos_eq v) by lra. rewrite (Rabs_pos_eq (SFR r * SFR x)) in g2 by lra. fold d in g2. apply abs_le in g2. rewrite e51. apply Rabs_le. nra.
Qed.
Lemma halves_good : pow_good (/ 2 ^ 51) halves_allowed halves_pow.
Proof.
  intros y q hy hq. unfold halves_allowed in hq. unfold halves_pow. destruct (Qc_eq_bool q phalf) eqn:eq.
  - apply Qc_eq_bool_correct in eq. subst q. destruct y as [s|s| |s m e]; try contradiction.
    + cbn [SFR]. unfold Rpowq. replace (is_int phalf) with false by reflexivity. unfold Rltb. destruct (Rlt_dec 0 0); [lra|]. rewrite Reqb_yes by reflexivity.
      replace (Qcltb phalf (qc 0)) with false by reflexivity. intros _. exists (S754_zero false). split; [reflexivity|]. split; [exact I|]. unfold near1. cbn [SFR]. rewrite Rminus_eq_0, Rabs_R0. lra.
    + destruct s.
      * assert (h : SFR (S754_finite true m e) < 0) by (pose proof (pos_mant m e); cbn [SFR]; lra). unfold Rpowq. replace (is_int phalf) with false by reflexivity.
        unfold Rltb. destruct (Rlt_dec 0 (SFR (S754_finite true m e))); [lra|]. rewrite Reqb_no by lra. reflexivity.
      * assert (h : 0 < SFR (S754_finite false m e)) by (pose proof (pos_mant m e); cbn [SFR]; lra).
        pose proof (half_pow _ h) as hm. unfold py_pow in hm. cbn [npow Rnum] in hm. fold phalf in hm.
        destruct (Rpowq (SFR (S754_finite false m e)) phalf) as [v|]; [|discriminate hm]. unfold rmap in hm. cbn [bind] in hm. injection hm as ->.
        intro hs. destruct (half_near m e hy hs) as [f g]. eexists. split; [reflexivity|]. auto.
  - rewrite orb_false_r in hq. pose proof (root_good y q hy hq) as h. destruct (Rpowq (SFR y) q) as [v|x]; [|exact h]. intro hs. destruct (h hs) as (w & h1 & h2 & h3). exists w. split; [exact h1|]. split; [exact h2|].
    unfold near1 in *. apply Rle_trans with (1 := h3). apply Rmult_le_compat_r; [apply Rabs_pos|]. apply Rinv_le_contravar; [apply pow_lt; lra|]. apply Rle_pow; [lra|lia].
Qed.

(** Water at 500 K and 100 kPa; its acentric factor is 0.344, about 11/32. *)
Definition soave_water (st : string) (n : Z) : res (pyval spec_float) :=
  @soave_rendlich_kwong spec_float (Bpow halves_pow) (temp64 "K" (f_int 500)) (pres64 "kPa" (f_int 100)) (temp64 "K" (f_int 647)) (pres64 "kPa" (f_int 22064)) st (VNum (f_lit (11 # 32))) n.
Lemma soave_w : finite64 (f_lit (11 # 32)) /\ SFR (f_lit (11 # 32)) = 11 / 32 /\ sized 100 (11 / 32) /\ Rabs (11 / 32) <= 1.
Proof.
  assert (e : f_lit (11 # 32) = S754_finite false 6192449487634432 (-54)) by (vm_compute; reflexivity). rewrite e. split; [vm_compute; reflexivity|]. split.
  - cbn [SFR]. rewrite Rmult_1_l. replace 6192449487634432%Z with (11 * 2 ^ 49)%Z by reflexivity. change (Zpos 6192449487634432) with (11 * 2 ^ 49)%Z. rewrite mult_IZR.
    replace (IZR (2 ^ 49)) with (p2 49) by (change (p2 49) with (2 ^ 49)%R; rewrite (pow_IZR 2 49); reflexivity). rewrite Rmult_assoc, <- p2_add. change (p2 (49 + -54)) with (/ (2 * (2 * (2 * (2 * (2 * 1)))))). lra.
  - assert (h : Rabs (11 / 32) = 11 / 32) by (apply Rabs_pos_eq; lra). split; [|rewrite h; lra]. right. rewrite h. split.
    + apply Rle_trans with (p2 (-2)); [apply p2_le; lia|]. change (p2 (-2)) with (/ (2 * (2 * 1))). lra.
    + apply Rle_trans with (p2 0); [change (p2 0) with 1; lra|apply p2_le; lia].
Qed.
Lemma soave_conditions : let t := 500 / 647 in let r := 100 / 22064 in let y := 1 + (0.480 + 1.574 * (11 / 32) - 0.176 * (11 / 32) ^ 2) * (1 - sqrt t) in
  t <= 4 /\ 1 / 2 <= y /\ 0.08664 * r <= 1 / 2 * t /\ 0.42748 * y ^ 2 * r / t ^ 2 <= 1 / 5 /\ 6 <= 0.42748 * y ^ 2 / (0.08664 * t) /\ 0.08664 * (r / t) <= 8 / 11.
Proof.
  cbv zeta. assert (h : 0.879 <= sqrt (500 / 647) <= 0.88).
  { split; [rewrite <- (sqrt_square 0.879) by lra|rewrite <- (sqrt_square 0.88) by lra]; apply sqrt_le_1_alt; lra. }
  set (s := sqrt (500 / 647)) in *. clearbody s. set (y := 1 + _ * (1 - s)). assert (hy : 1.119 <= y <= 1.122) by (unfold y; lra). clearbody y. assert (hy2 : 1.25 <= y ^ 2 <= 1.26) by nra.
  set (Y := y ^ 2) in *. clearbody Y. repeat split; lra.
Qed.
Lemma soave_runs : soave_water "vapor" 10 = Ok (VNum (S754_finite false 8974965572924728 (-53))) /\ soave_water "liquid" 10 = Ok (VNum (S754_finite false 6728966858616203 (-63))).
Proof. split; vm_compute; reflexivity. Qed.
Definition peng_water (n : Z) : res (pyval spec_float) :=
  @peng_robinson spec_float (Bpow halves_pow) (temp64 "K" (f_int 500)) (pres64 "kPa" (f_int 100)) (temp64 "K" (f_int 647)) (pres64 "kPa" (f_int 22064)) "liquid" (VNum (f_lit (11 # 32))) n.
Lemma peng_conditions : let t := 500 / 647 in let r := 100 / 22064 in let y := 1 + (0.37464 + 1.54226 * (11 / 32) - 0.26992 * (11 / 32) ^ 2) * (1 - sqrt t) in
  t <= 4 /\ 1 / 2 <= y /\ 6 <= 0.45724 * y ^ 2 / (0.07780 * t) /\ 0.07780 * (r / t) <= 8 / 11.
Proof.
  cbv zeta. assert (h : 0.879 <= sqrt (500 / 647) <= 0.88).
  { split; [rewrite <- (sqrt_square 0.879) by lra|rewrite <- (sqrt_square 0.88) by lra]; apply sqrt_le_1_alt; lra. }
  set (s := sqrt (500 / 647)) in *. clearbody s. set (y := 1 + _ * (1 - s)). assert (hy : 1.1 <= y <= 1.12) by (unfold y; lra). clearbody y. assert (hy2 : 1.21 <= y ^ 2 <= 1.26) by nra.
  set (Y := y ^ 2) in *. clearbody Y. repeat split; lra.
Qed.
Lemma peng_runs : peng_water 10 = Ok (VNum (S754_finite false 5620383446799113 (-63))).
Proof. vm_compute. reflexivity. Qed.
