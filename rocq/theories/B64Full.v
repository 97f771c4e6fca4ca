(** * B64Full: the operations of binary64 round correctly in the whole range *)
From Coq Require Import String List ZArith QArith Qcanon Bool Reals Qreals Lia Lra.
From Coq Require Import Floats.SpecFloat.
From Verif Require Import Py Num NumFacts Units Rounding RoundSpec RangeSpec FloatExp FloatRound B64Facts TextSpec PrintSpec B64Spec B64Round.
Local Open Scope R_scope.
Local Notation p2 := (powerRZ 2).

Lemma half_ulp f : / 2 * p2 f = p2 (f - 1).
Proof. replace f with (f - 1 + 1)%Z at 1 by lia. rewrite p2_add, p2_1. field. Qed.
(** The error, for tiny results too. *)
Lemma round_err s m e l x : 0 <= x < top64 -> rep (shr_record_of_loc m l) e x -> (e <= fexp 53 1024 (Zdigits2 m + e))%Z ->
  Rabs (SFR (binary_round_aux 53 1024 s m e l) - sgn s * x) <= / 2 ^ 53 * x + p2 (-1075).
Proof.
  intros (hx & lt) h he. destruct (norm_full m e l x h he) as (t & et & ht & hm & hc). set (f := fexp 53 1024 (Zdigits2 m + e)) in *.
  assert (f0 : (-1074 <= f)%Z) by (unfold f, fexp, emin; lia).
  destruct (nearest_even t f x ht) as (n & en & hn & near & _).
  assert (eb : binary_round_aux 53 1024 s m e l = finish s n f) by (unfold binary_round_aux, finish; rewrite et, en; reflexivity). rewrite eb.
  destruct (finish_ok s n f) as (fin & _ & _ & _); [lia|exact f0|lia|].
  pose proof (p2_gt f) as pf. pose proof (rep_bounds _ _ _ ht) as rb.
  assert (nd : Rabs (IZR n - x * / p2 f) <= / 2).
  { apply (Rmult_le_reg_r (p2 f)); [exact pf|]. rewrite <- (Rabs_pos_eq (p2 f)) at 2 by lra. rewrite <- Rabs_mult. replace ((IZR n - x * / p2 f) * p2 f) with (IZR n * p2 f - x) by (field; lra). exact near. }
  assert (small : (f <= 970)%Z \/ (f = 971 /\ n < 2 ^ 53)%Z).
  { destruct (Z_le_gt_dec f 970) as [|g]; [left; assumption|right]. assert (f1 : (f = 971)%Z).
    { destruct hc as [hc|hc]; [lia|]. assert (q : p2 (52 + f) < p2 1024).
      { apply Rle_lt_trans with x.
        - apply Rle_trans with (2 := proj1 rb). rewrite p2_add. apply Rmult_le_compat_r; [lra|]. rewrite p2_nonneg by lia. apply IZR_le. exact hc.
        - apply Rlt_trans with (1 := lt). rewrite top64_split. change 1024%Z with (53 + 971)%Z. rewrite (p2_add 53). apply Rmult_lt_compat_r; [apply p2_gt|]. rewrite p2_nonneg by lia. lra. }
      apply p2_lt_inv in q. lia. }
    split; [exact f1|]. assert (q : x * / p2 f < IZR (2 ^ 53) - / 2).
    { apply (Rmult_lt_reg_r (p2 f)); [exact pf|]. rewrite Rmult_assoc, Rinv_l, Rmult_1_r by lra. rewrite f1. rewrite <- top64_split. exact lt. }
    apply Rabs_le_inv in nd. apply lt_IZR. lra. }
  destruct (fin small) as (_ & va & _). rewrite va, <- Rmult_minus_distr_l, Rabs_mult, sgn_abs, Rmult_1_l.
  apply Rle_trans with (1 := near).
  assert (q53 : 0 < / 2 ^ 53) by (apply Rinv_0_lt_compat, pow_lt; lra). pose proof (p2_gt (-1075)).
  destruct hc as [hc|hc].
  - rewrite hc, half_ulp. change (-1074 - 1)%Z with (-1075)%Z. assert (0 <= / 2 ^ 53 * x) by (apply Rmult_le_pos; lra). lra.
  - assert (b : p2 52 * p2 f <= x).
    { apply Rle_trans with (2 := proj1 rb). apply Rmult_le_compat_r; [lra|]. rewrite p2_nonneg by lia. apply IZR_le, hc. }
    assert (e53 : / 2 ^ 53 * (p2 52 * p2 f) = / 2 * p2 f).
    { change (p2 52) with (2 ^ 52). change (2 ^ 53) with (2 * 2 ^ 52). rewrite Rinv_mult. assert (0 < 2 ^ 52) by (apply pow_lt; lra). field_simplify_eq; lra. }
    apply (Rmult_le_compat_l (/ 2 ^ 53)) in b; [|lra]. lra.
Qed.

Definition slight (v : R) (r : spec_float) : Prop := Rabs v < top64 -> Rabs (SFR r - v) <= / 2 ^ 53 * Rabs v + p2 (-1075).
Lemma top64_pos : 0 < top64.
Proof. unfold top64. apply Rmult_lt_0_compat; [apply IZR_lt; reflexivity|apply p2_gt]. Qed.
Lemma aux_full s m e l x : 0 < x -> rep (shr_record_of_loc m l) e x -> (e <= fexp 53 1024 (Zdigits2 m + e))%Z ->
  rounded64 (sgn s * x) (binary_round_aux 53 1024 s m e l) /\ slight (sgn s * x) (binary_round_aux 53 1024 s m e l).
Proof.
  intros hx h he. destruct (round_full s m e l x (Rlt_le _ _ hx) h he) as (a & b & _).
  assert (av : Rabs (sgn s * x) = x) by (rewrite Rabs_mult, sgn_abs, Rabs_pos_eq by lra; ring). pose proof top64_pos.
  unfold rounded64, slight. change limit64 with top64. rewrite av. split; [split; [exact a|]|].
  - destruct s; cbn [sgn] in *; split; intro k; try lra; apply b; lra.
  - intro k. apply round_err; try assumption. lra.
Qed.
Lemma zero_nearest x : finite64 x -> rounded64 (SFR x) x /\ slight (SFR x) x.
Proof.
  intro h. assert (z : Rabs (SFR x - SFR x) = 0) by (replace (SFR x - SFR x) with 0 by ring; apply Rabs_R0).
  assert (b : Rabs (SFR x) < top64).
  { pose proof top64_pos. destruct x as [s|s| |s m e]; try contradiction; [cbn [SFR]; rewrite Rabs_R0; assumption|].
    rewrite SFR_abs. destruct (bounded_cases m e h) as (h1 & h2 & _). rewrite top64_split.
    apply Rle_lt_trans with ((IZR (2 ^ 53) - 1) * p2 971); [|apply Rmult_lt_compat_r; [apply p2_gt|lra]].
    apply Rmult_le_compat; [apply IZR_le; lia|left; apply p2_gt| |apply p2_le; lia].
    rewrite <- minus_IZR. apply IZR_le. lia. }
  split.
  - unfold rounded64. change limit64 with top64. split; [intros _|split; intro k; [rewrite Rabs_pos_eq in b; pose proof top64_pos; lra|rewrite Rabs_left1 in b; pose proof top64_pos; lra]].
    split; [exact h|]. split; [exact b|]. rewrite z. split; [intros; apply Rabs_pos|].
    intros y hy k ne. exfalso. apply ne. symmetry in k. destruct (Req_dec (SFR y - SFR x) 0) as [d|d]; [lra|]. apply Rabs_no_R0 in d. contradiction.
  - intros _. rewrite z. pose proof (p2_gt (-1075)). assert (0 <= / 2 ^ 53 * Rabs (SFR x)) by (apply Rmult_le_pos; [left; apply Rinv_0_lt_compat, pow_lt; lra|apply Rabs_pos]). lra.
Qed.
Lemma zero_is s v : v = 0 -> rounded64 v (S754_zero s) /\ slight v (S754_zero s).
Proof. intros ->. exact (zero_nearest (S754_zero s) I). Qed.

Lemma pos_mant m e : 0 < IZR (Zpos m) * p2 e.
Proof. apply Rmult_lt_0_compat; [apply IZR_lt; lia|apply p2_gt]. Qed.
Lemma mul_full x y : finite64 x -> finite64 y -> rounded64 (SFR x * SFR y) (SFmul 53 1024 x y) /\ slight (SFR x * SFR y) (SFmul 53 1024 x y).
Proof.
  intros hx hy. destruct x as [s|s| |s m e], y as [t|t| |t n f]; try contradiction; cbn [SFmul]; try (apply zero_is; cbn [SFR]; ring).
  set (v := IZR (Zpos (m * n)) * p2 (e + f)).
  assert (ev : SFR (S754_finite s m e) * SFR (S754_finite t n f) = sgn (xorb s t) * v).
  { rewrite sgn_xor. cbn [SFR]. fold (sgn s) (sgn t). unfold v. rewrite p2_add, Pos2Z.inj_mul, mult_IZR. ring. }
  rewrite ev. apply aux_full; [apply pos_mant|apply rep_exact; lia|].
  destruct (bounded_cases m e hx) as (_ & b1 & b2), (bounded_cases n f hy) as (_ & c1 & c2).
  unfold fexp, emin. destruct (Z_le_gt_dec (e + f) (-1074)) as [g|g]; [lia|].
  assert (d : (53 <= Zdigits2 (Zpos (m * n)))%Z); [|lia].
  assert (k : (2 ^ 52 <= Zpos m \/ 2 ^ 52 <= Zpos n)%Z) by lia. destruct (digits_Z (Zpos (m * n)) eq_refl) as (_ & _ & q).
  assert (r : (2 ^ 52 < 2 ^ Zdigits2 (Zpos (m * n)))%Z) by (rewrite Pos2Z.inj_mul in *; destruct k; nia).
  pose proof (proj1 (digits_Z (Zpos (m * n)) eq_refl)). apply Z.pow_lt_mono_r_iff in r; lia.
Qed.

Lemma core_full m e n f : (0 < m)%Z -> (0 < n)%Z ->
  exists q e' l, SFdiv_core_binary 53 1024 m e n f = (q, e', l) /\ rep (shr_record_of_loc q l) e' (IZR m * p2 e / (IZR n * p2 f)) /\ (e' <= fexp 53 1024 (Zdigits2 q + e'))%Z.
Proof.
  intros hm hn. unfold SFdiv_core_binary. destruct (digits_Z m hm) as (c0 & dm). destruct (digits_Z n hn) as (d0 & dn).
  set (c := Zdigits2 m) in *. set (d := Zdigits2 n) in *.
  assert (pm : 0 < IZR m) by (apply IZR_lt, hm). assert (pn : 0 < IZR n) by (apply IZR_lt, hn).
  set (e' := Z.min (fexp 53 1024 (c + e - (d + f))) (e - f)). set (s := (e - f - e')%Z). assert (s0 : (0 <= s)%Z) by lia.
  assert (em : match s with Z0 => m | Z.pos _ => Z.shiftl m s | Z.neg _ => 0%Z end = (m * 2 ^ s)%Z).
  { rewrite <- Z.shiftl_mul_pow2 by exact s0. destruct s; [rewrite Z.shiftl_0_r; reflexivity|reflexivity|lia]. }
  rewrite em. pose proof (Z_div_mod (m * 2 ^ s) n ltac:(lia)) as dm2. destruct (Z.div_eucl (m * 2 ^ s) n) as (q, r). destruct dm2 as (eq1 & hr).
  exists q, e', (new_location n r). split; [reflexivity|].
  assert (p2s : (0 < 2 ^ s)%Z) by (apply Z.pow_pos_nonneg; lia).
  assert (q0 : (0 <= q)%Z) by nia.
  assert (ex : IZR m * p2 e / (IZR n * p2 f) = (IZR q + IZR r / IZR n) * p2 e').
  { assert (k : IZR m * p2 s = IZR n * IZR q + IZR r) by (rewrite p2_nonneg by exact s0; rewrite <- !mult_IZR, <- plus_IZR; f_equal; exact eq1).
    replace (IZR q + IZR r / IZR n) with ((IZR n * IZR q + IZR r) / IZR n) by (field; lra). rewrite <- k. unfold s.
    replace (e - f - e')%Z with (e + - f + - e')%Z by lia. rewrite !p2_add, !p2_opp. pose proof (p2_gt e'). pose proof (p2_gt f). field. repeat split; lra. }
  rewrite ex. split; [apply new_location_rep; lia|].
  (* the quotient has at least c - d + s bits *)
  assert (big : (c - d + s <= Zdigits2 q)%Z).
  { destruct (Z_le_gt_dec (c - d + s) 0) as [g|g]; [apply Z.le_trans with (1 := g); destruct q; cbn; lia|].
    assert (lo : (2 ^ (c - 1 + s) < 2 ^ d * (q + 1))%Z).
    { apply Z.le_lt_trans with (m * 2 ^ s)%Z; [rewrite Z.pow_add_r by lia; apply Z.mul_le_mono_nonneg_r; lia|].
      rewrite eq1. apply Z.lt_le_trans with (n * (q + 1))%Z; [nia|]. apply Z.mul_le_mono_nonneg_r; lia. }
    replace (c - 1 + s)%Z with (d + (c - d + s - 1))%Z in lo by lia. rewrite (Z.pow_add_r 2 d) in lo by lia.
    apply Z.mul_lt_mono_pos_l in lo; [|apply Z.pow_pos_nonneg; lia].
    assert (qp : (0 < q)%Z) by (assert (0 < 2 ^ (c - d + s - 1))%Z by (apply Z.pow_pos_nonneg; lia); lia).
    destruct (digits_Z q qp) as (d1 & dq). assert (k : (2 ^ (c - d + s - 1) < 2 ^ Zdigits2 q)%Z) by lia. apply Z.pow_lt_mono_r_iff in k; lia. }
  apply Z.le_trans with (fexp 53 1024 (c + e - (d + f))); [lia|]. apply fexp_mono. lia.
Qed.
Lemma div_full x y : finite64 x -> finite64 y -> SFR y <> 0 -> rounded64 (SFR x / SFR y) (SFdiv 53 1024 x y) /\ slight (SFR x / SFR y) (SFdiv 53 1024 x y).
Proof.
  intros hx hy hn. destruct x as [s|s| |s m e], y as [t|t| |t n f]; try contradiction; try (exfalso; apply hn; reflexivity); cbn [SFdiv].
  - apply zero_is. cbn [SFR]. unfold Rdiv. ring.
  - pose proof (pos_mant m e) as p1. pose proof (pos_mant n f) as p3. set (v := IZR (Zpos m) * p2 e / (IZR (Zpos n) * p2 f)).
    assert (ev : SFR (S754_finite s m e) / SFR (S754_finite t n f) = sgn (xorb s t) * v).
    { rewrite sgn_xor. cbn [SFR]. fold (sgn s) (sgn t). unfold v. assert (tt : / sgn t = sgn t) by (destruct t; cbn [sgn]; field).
      unfold Rdiv. rewrite (Rinv_mult (sgn t)), tt. ring. }
    rewrite ev. destruct (core_full (Z.pos m) e (Z.pos n) f eq_refl eq_refl) as (q & e' & l & -> & rp & dq).
    apply aux_full; [apply Rdiv_lt_0_compat; assumption|exact rp|exact dq].
Qed.

Lemma whole_full s m e : rounded64 (sgn s * (IZR (Zpos m) * p2 e)) (binary_round 53 1024 s m e) /\ slight (sgn s * (IZR (Zpos m) * p2 e)) (binary_round 53 1024 s m e).
Proof.
  unfold binary_round. pose proof (digits_spec m) as d. set (c := Zpos (digits2_pos m)) in *. assert (c0 : (0 < c)%Z) by lia.
  destruct (shl_align m e (fexp 53 1024 (c + e))) as (mz, ez) eqn:sa.
  assert (k : IZR (Zpos mz) * p2 ez = IZR (Zpos m) * p2 e /\ (ez <= fexp 53 1024 (Zdigits2 (Zpos mz) + ez))%Z).
  { unfold shl_align in sa. remember (fexp 53 1024 (c + e)) as F eqn:eF. destruct (F - e)%Z as [|p|p] eqn:q; injection sa as <- <-.
    - split; [reflexivity|]. cbn [Zdigits2]. fold c. rewrite <- eF. lia.
    - split; [reflexivity|]. cbn [Zdigits2]. fold c. rewrite <- eF. lia.
    - split; [rewrite shift_pos_val, mult_IZR, <- p2_nonneg by lia; rewrite Rmult_assoc, <- p2_add; replace (Z.pos p + F)%Z with e by lia; reflexivity|].
      replace (Zdigits2 (Z.pos (shift_pos p m))) with (c + Z.pos p)%Z; [replace (c + Z.pos p + F)%Z with (c + e)%Z by lia; lia|]. symmetry. apply digits_unique; [lia|].
      rewrite shift_pos_val. replace (c + Z.pos p - 1)%Z with (c - 1 + Z.pos p)%Z by lia. rewrite !Z.pow_add_r by lia.
      assert (0 < 2 ^ Zpos p)%Z by (apply Z.pow_pos_nonneg; lia). nia. }
  destruct k as (k1 & k2). rewrite <- k1. apply aux_full; [apply pos_mant|apply rep_exact; lia|exact k2].
Qed.
Lemma normalize_full z e b : rounded64 (IZR z * p2 e) (binary_normalize 53 1024 z e b) /\ slight (IZR z * p2 e) (binary_normalize 53 1024 z e b).
Proof.
  destruct z as [|m|m]; cbn [binary_normalize].
  - apply zero_is. ring.
  - pose proof (whole_full false m e) as k. cbn [sgn] in k. rewrite Rmult_1_l in k. exact k.
  - pose proof (whole_full true m e) as k. cbn [sgn] in k. change (Z.neg m) with (- Z.pos m)%Z. rewrite opp_IZR.
    replace (- IZR (Z.pos m) * p2 e) with (-1 * (IZR (Z.pos m) * p2 e)) by ring. exact k.
Qed.
Lemma add_full x y : finite64 x -> finite64 y -> rounded64 (SFR x + SFR y) (SFadd 53 1024 x y) /\ slight (SFR x + SFR y) (SFadd 53 1024 x y).
Proof.
  intros hx hy. destruct x as [s|s| |s m e], y as [t|t| |t n f]; try contradiction; cbn [SFadd].
  - destruct (Bool.eqb s t); apply zero_is; cbn [SFR]; ring.
  - replace (SFR (S754_zero s) + SFR (S754_finite t n f)) with (SFR (S754_finite t n f)) by (cbn; ring). apply zero_nearest, hy.
  - replace (SFR (S754_finite s m e) + SFR (S754_zero t)) with (SFR (S754_finite s m e)) by (cbn; ring). apply zero_nearest, hx.
  - set (z := (cond_Zopp s _ + cond_Zopp t _)%Z). set (g := Z.min e f).
    assert (v : IZR z * p2 g = SFR (S754_finite s m e) + SFR (S754_finite t n f)).
    { unfold z. rewrite plus_IZR, Rmult_plus_distr_r, !cond_opp. fold g. rewrite !align by (unfold g; lia). reflexivity. }
    rewrite <- v. apply normalize_full.
Qed.
Lemma sub_is_add x y : SFR x - SFR y = SFR x + SFR (SFopp y).
Proof. destruct y as [t|t| |t n f]; cbn; try ring. destruct t; cbn; ring. Qed.
Lemma sub_full x y : finite64 x -> finite64 y -> rounded64 (SFR x - SFR y) (SFsub 53 1024 x y) /\ slight (SFR x - SFR y) (SFsub 53 1024 x y).
Proof.
  intros hx hy. assert (e : rounded64 (SFR x - SFR y) (SFadd 53 1024 x (SFopp y)) /\ slight (SFR x - SFR y) (SFadd 53 1024 x (SFopp y))).
  { rewrite sub_is_add. apply add_full; [exact hx|apply opp_exact, hy]. }
  destruct x as [s|s| |s m e0], y as [t|t| |t n f]; try contradiction; cbn [SFsub SFopp] in *; try exact e.
  revert e. cbn [SFadd]. destruct s, t; cbn; intro e; exact e.
Qed.
Lemma operations x y : finite64 x -> finite64 y ->
  rounded64 (SFR x + SFR y) (SFadd 53 1024 x y) /\ rounded64 (SFR x - SFR y) (SFsub 53 1024 x y) /\
  rounded64 (SFR x * SFR y) (SFmul 53 1024 x y) /\ (SFR y <> 0 -> rounded64 (SFR x / SFR y) (SFdiv 53 1024 x y)).
Proof.
  intros hx hy. split; [apply add_full; assumption|]. split; [apply sub_full; assumption|]. split; [apply mul_full; assumption|].
  intro h. apply div_full; assumption.
Qed.
