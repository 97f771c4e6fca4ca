(** * WaterFloatFacts: the water properties in binary64 *)
From Coq Require Import String List ZArith QArith Qcanon Bool Reals Qreals Lia Lra.
From Coq Require Import Floats.SpecFloat.
From Verif Require Import Py Num NumFacts UnitsData UnitsStruct Units Formulas WaterData Water WaterSpec WaterFacts Rounding RoundSpec Range RangeSpec RangeFacts FloatExp FloatRound B64Facts TextSpec PrintSpec B64Spec B64Round B64Full
  WaterFloat WaterFloatSpec.
Import ListNotations.
Local Open Scope string_scope.
Local Open Scope list_scope.
Local Open Scope R_scope.
Local Notation p2 := (powerRZ 2).

(** ** Floor and ceiling *)
Lemma f_floor_spec x : IZR (f_floor x) <= SFR x < IZR (f_floor x) + 1.
Proof.
  destruct x as [s|s| |s m e]; cbn [f_floor SFR]; try lra.
  set (z := if s then Zneg m else Zpos m).
  assert (hz : (if s then -1 else 1) * (IZR (Zpos m) * p2 e) = IZR z * p2 e).
  { unfold z. destruct s; [|ring]. change (Zneg m) with (- Zpos m)%Z. rewrite opp_IZR. ring. }
  rewrite hz. destruct (Z.leb_spec 0 e) as [he|he].
  - rewrite mult_IZR, <- p2_nonneg by exact he. lra.
  - assert (hd : (0 < 2 ^ (- e))%Z) by (apply Z.pow_pos_nonneg; lia).
    pose proof (Z_div_mod_eq_full z (2 ^ (- e))) as hq. pose proof (Z.mod_pos_bound z (2 ^ (- e)) hd) as hr.
    assert (hp : p2 e = / IZR (2 ^ (- e))) by (rewrite <- p2_nonneg by lia; rewrite <- p2_opp; f_equal; lia).
    rewrite hp. set (D := (2 ^ (- e))%Z) in *. set (q := (z / D)%Z) in *.
    assert (hD : 0 < IZR D) by (apply IZR_lt; exact hd).
    assert (e1 : IZR z = IZR D * IZR q + IZR (z mod D)) by (rewrite <- mult_IZR, <- plus_IZR; f_equal; exact hq).
    assert (r1 : 0 <= IZR (z mod D)) by (apply IZR_le; lia). assert (r2 : IZR (z mod D) < IZR D) by (apply IZR_lt; lia).
    rewrite e1. replace ((IZR D * IZR q + IZR (z mod D)) * / IZR D) with (IZR q + IZR (z mod D) / IZR D) by (field; lra).
    assert (0 <= IZR (z mod D) / IZR D) by (apply Rmult_le_pos; [exact r1|left; apply Rinv_0_lt_compat; exact hD]).
    assert (IZR (z mod D) / IZR D < 1) by (apply (Rmult_lt_reg_r (IZR D)); [exact hD|]; unfold Rdiv; rewrite Rmult_assoc, Rinv_l; lra). lra.
Qed.
Lemma f_floor_R x : f_floor x = Rfloor (SFR x).
Proof. symmetry. apply floor_unique. apply f_floor_spec. Qed.
Lemma SFR_opp x : SFR (SFopp x) = - SFR x.
Proof. destruct x as [s|s| |s m e]; cbn [SFopp SFR]; try ring. destruct s; cbn [negb]; ring. Qed.
Lemma f_ceil_R x : f_ceil x = Rceil (SFR x).
Proof. unfold f_ceil, Rceil. rewrite f_floor_R, SFR_opp. reflexivity. Qed.

(** ** Numbers that are exact *)
Lemma representable M e : (0 <= M < 2 ^ 53)%Z -> (-1000 <= e <= 900)%Z -> exists x, finite64 x /\ SFR x = IZR M * p2 e.
Proof.
  intros hM he. destruct (Z.eq_dec M 0) as [->|nz].
  - exists (S754_zero false). split; [exact I|]. cbn [SFR]. ring.
  - pose proof (Z.log2_spec M ltac:(lia)) as hl. pose proof (Z.log2_nonneg M) as h0.
    assert (hl2 : (Z.log2 M < 53)%Z) by (apply Z.log2_lt_pow2; lia).
    set (j := (52 - Z.log2 M)%Z) in *.
    assert (hj : (0 < 2 ^ j)%Z) by (apply Z.pow_pos_nonneg; lia).
    assert (hp : (0 < M * 2 ^ j)%Z) by (apply Z.mul_pos_pos; lia).
    destruct (M * 2 ^ j)%Z as [|p|p] eqn:ep; try lia.
    exists (S754_finite false p (e - j)). split.
    + cbn [finite64]. apply bounded_intro. rewrite <- ep.
      assert (a1 : (2 ^ 52 = 2 ^ Z.log2 M * 2 ^ j)%Z) by (rewrite <- Z.pow_add_r by lia; f_equal; lia).
      assert (a2 : (2 ^ 53 = 2 ^ Z.succ (Z.log2 M) * 2 ^ j)%Z) by (rewrite <- Z.pow_add_r by lia; f_equal; lia).
      split; [rewrite a2; apply Z.mul_lt_mono_pos_r; lia|]. split; [lia|]. right. rewrite a1. apply Z.mul_le_mono_nonneg_r; lia.
    + cbn [SFR]. rewrite <- ep, mult_IZR, <- p2_nonneg by lia. rewrite Rmult_assoc, <- p2_add, Rmult_1_l. do 2 f_equal. lia.
Qed.
Lemma small_top v : Rabs v <= 1000000000 -> Rabs v < limit64 /\ Rabs v < top64.
Proof.
  intro h. change limit64 with top64. split; apply Rle_lt_trans with (1 := h); unfold top64;
  apply Rlt_le_trans with (1000000000 * 2); [lra|idtac|lra|idtac];
  (apply Rmult_le_compat; [lra|lra|apply IZR_le; discriminate|]; apply Rle_trans with (p2 1); [rewrite p2_1; lra|apply p2_le; lia]).
Qed.
Lemma rounded_exact v x y : Rabs v <= 1000000000 -> rounded64 v y -> finite64 x -> SFR x = v -> finite64 y /\ SFR y = v.
Proof.
  intros hv [hr _] hx e. destruct (small_top v hv) as [h1 _]. specialize (hr h1). split; [apply hr|].
  rewrite <- e. destruct (zero_nearest x hx) as [[hz _] _]. rewrite e in hz. specialize (hz h1). exact (nearest_unique v y x hr hz).
Qed.
Lemma f_int_small z : (Z.abs z <= 2 ^ 53)%Z -> finite64 (f_int z) /\ SFR (f_int z) = IZR z.
Proof. intro h. destruct (f_int_near z) as (a & _ & b); [apply Z.le_trans with (1 := h); apply Z.pow_le_mono_r; lia|]. split; [exact a|apply b, h]. Qed.

(** ** Which rows are used *)
Definition Rside (c : comparison) (x y : R) : Prop := match c with Lt => x < y | Eq => x = y | Gt => x > y end.
Lemma mag_compare m1 e1 m2 e2 : bounded 53 1024 m1 e1 = true -> bounded 53 1024 m2 e2 = true -> (e1 < e2)%Z -> IZR (Zpos m1) * p2 e1 < IZR (Zpos m2) * p2 e2.
Proof.
  intros h1 h2 he. apply bounded_cases in h1. apply bounded_cases in h2.
  assert (a : (2 ^ 52 <= Zpos m2)%Z) by lia. assert (b : (Zpos m1 < 2 ^ 53)%Z) by lia.
  apply Rlt_le_trans with (IZR (2 ^ 53) * p2 e1); [apply Rmult_lt_compat_r; [apply p2_gt|apply IZR_lt; exact b]|].
  apply Rle_trans with (IZR (2 ^ 52) * p2 e2); [|apply Rmult_le_compat_r; [left; apply p2_gt|apply IZR_le; exact a]].
  rewrite <- !p2_nonneg by lia. rewrite <- !p2_add. apply p2_le. lia.
Qed.
Lemma SFcompare_R x y : finite64 x -> finite64 y -> exists c, SFcompare x y = Some c /\ Rside c (SFR x) (SFR y).
Proof.
  assert (pos : forall m e, 0 < IZR (Zpos m) * p2 e) by (intros; apply pos_mant).
  destruct x as [s|s| |s m e], y as [t|t| |t n f]; cbn [finite64]; intros h1 h2; try contradiction; cbn [SFcompare SFR].
  - exists Eq. split; reflexivity.
  - pose proof (pos n f). destruct t; eexists; (split; [reflexivity|cbn [Rside]; lra]).
  - pose proof (pos m e). destruct s; eexists; (split; [reflexivity|cbn [Rside]; lra]).
  - pose proof (pos m e) as a. pose proof (pos n f) as b.
    assert (g : match (e ?= f)%Z with Lt => IZR (Zpos m) * p2 e < IZR (Zpos n) * p2 f | Gt => IZR (Zpos m) * p2 e > IZR (Zpos n) * p2 f |
                Eq => Rside (Pos.compare_cont Eq m n) (IZR (Zpos m) * p2 e) (IZR (Zpos n) * p2 f) end).
    { destruct (Z.compare_spec e f) as [<-|l|l]; [|apply mag_compare; assumption|apply Rlt_gt, mag_compare; assumption].
      change (Pos.compare_cont Eq m n) with (Pos.compare m n). pose proof (p2_gt e). destruct (Pos.compare_spec m n) as [->|l|l]; cbn [Rside]; [reflexivity| |].
      - apply Rmult_lt_compat_r; [assumption|]. apply IZR_lt. lia.
      - apply Rlt_gt, Rmult_lt_compat_r; [assumption|]. apply IZR_lt. lia. }
    destruct s, t; try (eexists; split; [reflexivity|cbn [Rside]; lra]).
    + destruct (e ?= f)%Z; [|eexists; split; [reflexivity|cbn [Rside]; lra]..].
      exists (CompOpp (Pos.compare_cont Eq m n)). split; [reflexivity|]. destruct (Pos.compare_cont Eq m n); cbn [Rside CompOpp] in *; lra.
    + destruct (e ?= f)%Z; [|eexists; split; [reflexivity|cbn [Rside]; lra]..].
      exists (Pos.compare_cont Eq m n). split; [reflexivity|]. destruct (Pos.compare_cont Eq m n); cbn [Rside] in *; lra.
Qed.
Lemma SFleb_le x y : finite64 x -> finite64 y -> SFleb x y = true <-> SFR x <= SFR y.
Proof.
  intros h1 h2. unfold SFleb. destruct (SFcompare_R x y h1 h2) as [c [-> hc]]. destruct c; cbn [Rside] in hc; split; intro; try reflexivity; try discriminate; lra.
Qed.
Lemma SFeqb_eq x y : finite64 x -> finite64 y -> SFeqb x y = true <-> SFR x = SFR y.
Proof.
  intros h1 h2. unfold SFeqb. destruct (SFcompare_R x y h1 h2) as [c [-> hc]]. destruct c; cbn [Rside] in hc; split; intro; try reflexivity; try discriminate; lra.
Qed.

(** The difference is exact; the quotient stays below the next whole number. *)
Lemma exponent_of T : finite64 T -> 275 <= SFR T <= 1345 -> exists M e, SFR T = IZR M * p2 e /\ (0 < M < 2 ^ 53)%Z /\ (-53 < e < 0)%Z.
Proof.
  intros hf h. destruct T as [s|s| |s m e]; try contradiction; try (cbn [SFR] in h; lra).
  destruct s; [cbn [SFR] in h; pose proof (pos_mant m e); lra|].
  assert (hv : SFR (S754_finite false m e) = IZR (Zpos m) * p2 e) by (cbn [SFR]; ring).
  destruct (bounded_cases m e hf) as (b1 & b2 & b3). exists (Zpos m), e. split; [exact hv|]. split; [lia|]. split.
  - apply Z.nle_gt. intro k. assert (IZR (Zpos m) * p2 e < 1); [|rewrite hv in h; lra].
    apply Rlt_le_trans with (IZR (2 ^ 53) * p2 e); [apply Rmult_lt_compat_r; [apply p2_gt|apply IZR_lt; exact b1]|].
    rewrite <- p2_nonneg by lia. rewrite <- p2_add. change 1 with (p2 0). apply p2_le. lia.
  - apply Z.nle_gt. intro k. assert (2 ^ 52 <= Zpos m)%Z by lia.
    assert (IZR (2 ^ 52) * 1 <= IZR (Zpos m) * p2 e). { apply Rmult_le_compat; [apply IZR_le; discriminate|lra|apply IZR_le; assumption|change 1 with (p2 0); apply p2_le; exact k]. }
    rewrite hv in h. assert (2000 < IZR (2 ^ 52)) by (apply IZR_lt; reflexivity). lra.
Qed.
Lemma exact_below T n : finite64 T -> 275 <= SFR T <= 1345 -> (0 <= n)%Z -> IZR n <= SFR T ->
  finite64 (SFsub 53 1024 T (f_int n)) /\ SFR (SFsub 53 1024 T (f_int n)) = SFR T - IZR n.
Proof.
  intros hf h h0 hn. assert (n2 : (n <= 1345)%Z) by (apply le_IZR; lra).
  destruct (f_int_small n) as [i1 i2]; [lia|]. destruct (sub_full T (f_int n) hf i1) as [r _]. rewrite i2 in r.
  destruct (exponent_of T hf h) as (m & e & hv & bm & be).
  set (M := (m - n * 2 ^ (- e))%Z).
  assert (hM : IZR M * p2 e = SFR T - IZR n).
  { rewrite hv. unfold M. rewrite minus_IZR, mult_IZR, <- p2_nonneg by lia. rewrite p2_opp. field. apply Rgt_not_eq, p2_gt. }
  assert (hb : (0 <= M < 2 ^ 53)%Z).
  { split.
    - apply le_IZR. apply (Rmult_le_reg_r (p2 e)); [apply p2_gt|]. rewrite hM. lra.
    - unfold M. assert (0 <= n * 2 ^ (- e))%Z by (apply Z.mul_nonneg_nonneg; [exact h0|apply Z.pow_nonneg; lia]). lia. }
  destruct (representable M e hb ltac:(lia)) as [x [hx ex]].
  apply IZR_le in h0. refine (rounded_exact (SFR T - IZR n) x _ _ r hx _); [apply Rabs_le; lra|]. rewrite ex. exact hM.
Qed.
Lemma difference_exact T : finite64 T -> 275 <= SFR T <= 1345 -> finite64 (SFsub 53 1024 T (f_int 275)) /\ SFR (SFsub 53 1024 T (f_int 275)) = SFR T - 275.
Proof. intros hf h. apply exact_below; [exact hf|exact h|lia|lra]. Qed.
Lemma tiny_small : 0 < p2 (-1075) < / 10 ^ 30.
Proof.
  split; [apply p2_gt|]. apply Rle_lt_trans with (p2 (-104)); [apply p2_le; lia|]. change (-104)%Z with (- (104))%Z. rewrite p2_opp.
  apply Rinv_lt_contravar; [apply Rmult_lt_0_compat; [apply pow_lt; lra|apply p2_gt]|]. rewrite p2_nonneg by lia. change 10 with (IZR 10). rewrite pow_IZR. apply IZR_lt. reflexivity.
Qed.
Lemma index_close T : finite64 T -> 275 <= SFR T <= 1345 -> let k := cell_of (SFR T) in
  finite64 (row_index T) /\ IZR k <= SFR (row_index T) < IZR k + 1 /\ (SFR (row_index T) = IZR k <-> SFR T = IZR (WaterFacts.grid k)).
Proof.
  intros hf h k. destruct (difference_exact T hf h) as [d1 d2]. destruct (f_int_small 10) as [i1 i2]; [lia|].
  unfold row_index. set (d := SFsub 53 1024 T (f_int 275)) in *.
  destruct (div_full d (f_int 10) d1 i1) as [r s]; [rewrite i2; lra|]. rewrite d2, i2 in r, s.
  set (q := SFdiv 53 1024 d (f_int 10)) in *. set (v := (SFR T - 275) / 10) in *.
  assert (hv : Rabs v <= 1000000000) by (apply Rabs_le; unfold v; lra). destruct (small_top v hv) as [t1 t2].
  pose proof (proj1 r t1) as near. specialize (s t2).
  destruct (cell_spec (SFR T)) as [c1 c2]. fold k in c1, c2. rewrite grid_R in c1, c2.
  assert (kr : (0 <= k <= 107)%Z) by (apply cell_range; exact h).
  assert (v1 : IZR k <= v) by (unfold v; lra). assert (v2 : v < IZR k + 1) by (unfold v; lra).
  destruct near as (nf & _ & nn & _). split; [exact nf|].
  (* not below a whole number the quotient is not below *)
  destruct (f_int_small k) as [k1 k2]; [lia|].
  assert (low : IZR k <= SFR q).
  { specialize (nn (f_int k) k1). rewrite k2 in nn. apply Rnot_lt_le. intro l. rewrite (Rabs_left (SFR q - v)) in nn by lra.
    destruct (Rle_lt_or_eq_dec _ _ v1) as [l1|l1]; [rewrite (Rabs_left (IZR k - v)) in nn by lra; lra|].
    rewrite <- l1, (Rminus_diag_eq (IZR k) (IZR k)), Rabs_R0 in nn by reflexivity. lra. }
  destruct (exponent_of T hf h) as (M & e & hM & bM & be). pose proof tiny_small as [y0 y1]. pose proof (p2_gt e) as pe.
  assert (lu : / 2 ^ 53 = p2 (-53)) by (change (-53)%Z with (- Z.of_nat 53)%Z; rewrite p2_opp, <- pow_powerRZ; reflexivity).
  (* one step of the grid of T *)
  assert (Mb : p2 (-53) * SFR T <= p2 e - p2 (-53) * p2 e).
  { rewrite hM. assert (IZR M <= IZR (2 ^ 53) - 1) by (rewrite <- minus_IZR; apply IZR_le; lia).
    apply Rle_trans with (p2 (-53) * ((IZR (2 ^ 53) - 1) * p2 e)); [apply Rmult_le_compat_l; [left; apply p2_gt|apply Rmult_le_compat_r; lra]|].
    rewrite <- p2_nonneg by lia. right. replace (p2 (-53) * ((p2 53 - 1) * p2 e)) with ((p2 (-53) * p2 53) * p2 e - p2 (-53) * p2 e) by ring.
    rewrite <- p2_add. change (p2 (-53 + 53)) with 1. ring. }
  assert (e53 : p2 (-53) <= p2 e) by (apply p2_le; lia).
  assert (grd : forall z : Z, IZR z - SFR T > 0 -> IZR z - SFR T >= p2 e).
  { intros z hz. assert (hh : IZR z - SFR T = IZR (z * 2 ^ (- e) - M) * p2 e).
    { rewrite minus_IZR, mult_IZR, <- p2_nonneg by lia. rewrite p2_opp, hM. field. apply Rgt_not_eq, pe. }
    rewrite hh in *. assert (0 < z * 2 ^ (- e) - M)%Z. { apply lt_IZR. apply (Rmult_lt_reg_r (p2 e)); [exact pe|]. lra. }
    assert (1 <= IZR (z * 2 ^ (- e) - M)) by (apply IZR_le; lia). apply Rle_ge. apply Rle_trans with (1 * p2 e); [lra|]. apply Rmult_le_compat_r; lra. }
  assert (grd2 : forall z : Z, SFR T - IZR z > 0 -> SFR T - IZR z >= p2 e).
  { intros z hz. assert (hh : SFR T - IZR z = IZR (M - z * 2 ^ (- e)) * p2 e).
    { rewrite minus_IZR, mult_IZR, <- p2_nonneg by lia. rewrite p2_opp, hM. field. apply Rgt_not_eq, pe. }
    rewrite hh in *. assert (0 < M - z * 2 ^ (- e))%Z. { apply lt_IZR. apply (Rmult_lt_reg_r (p2 e)); [exact pe|]. lra. }
    assert (1 <= IZR (M - z * 2 ^ (- e))) by (apply IZR_le; lia). apply Rle_ge. apply Rle_trans with (1 * p2 e); [lra|]. apply Rmult_le_compat_r; lra. }
  rewrite lu in s. apply Rabs_le_inv in s.
  assert (va : Rabs v = v) by (apply Rabs_pos_eq; unfold v; lra). rewrite va in s.
  assert (u53 : p2 (-53) > / 10 ^ 17).
  { apply Rlt_gt. change (-53)%Z with (- (53))%Z. rewrite p2_opp. apply Rinv_lt_contravar; [apply Rmult_lt_0_compat; [apply p2_gt|apply pow_lt; lra]|].
    rewrite p2_nonneg by lia. change 10 with (IZR 10). rewrite pow_IZR. apply IZR_lt. reflexivity. }
  assert (tt : p2 (-1075) < p2 (-53) * 20).
  { apply Rlt_trans with (1 := y1). apply Rlt_trans with (/ 10 ^ 17); [|lra]. apply Rinv_lt_contravar; [apply Rmult_lt_0_compat; lra|lra]. }
  assert (pp : 0 < p2 (-53) * p2 e) by (apply Rmult_lt_0_compat; apply p2_gt).
  assert (pv : p2 (-53) * v = (p2 (-53) * SFR T - p2 (-53) * 275) / 10) by (unfold v; field).
  split; [split; [exact low|]|].
  - assert (g : IZR (WaterFacts.grid (k + 1)) - SFR T >= p2 e) by (apply grd; rewrite grid_R, plus_IZR; lra). rewrite grid_R, plus_IZR in g.
    assert (v <= IZR k + 1 - p2 e / 10) by (unfold v; lra). lra.
  - rewrite grid_R. split.
    + intro e0. apply Rle_antisym; [|unfold v in v1; lra]. apply Rnot_lt_le. intro l.
      assert (g : SFR T - IZR (WaterFacts.grid k) >= p2 e) by (apply grd2; rewrite grid_R; lra). rewrite grid_R in g.
      assert (v >= IZR k + p2 e / 10) by (unfold v; lra). lra.
    + intro e0. assert (ev : v = IZR k) by (unfold v; lra). specialize (nn (f_int k) k1). rewrite k2, ev in nn.
      rewrite (Rminus_diag_eq (IZR k) (IZR k)), Rabs_R0 in nn by reflexivity. apply Rabs_le_inv in nn. lra.
Qed.
Lemma rows_exact T : finite64 T -> 275 <= SFR T <= 1345 ->
  f_rows T = (WaterFacts.grid (cell_of (SFR T)), WaterFacts.grid (Rceil ((SFR T - 275) / 10))).
Proof.
  intros hf h. destruct (index_close T hf h) as (_ & [a b] & c). unfold f_rows. rewrite f_floor_R, f_ceil_R.
  rewrite (floor_unique _ (cell_of (SFR T)) (conj a b)). unfold WaterFacts.grid at 1. f_equal. unfold WaterFacts.grid. do 2 f_equal.
  destruct (ceil_cases (SFR T)) as [[e ->]|[l ->]].
  - apply c in e. rewrite e. apply ceil_unique. lra.
  - apply ceil_unique. rewrite plus_IZR. split; [|lra]. destruct (Rle_lt_or_eq_dec _ _ a) as [g|g]; [lra|]. symmetry in g. apply c in g. lra.
Qed.
Lemma rows_right T : finite64 T -> 275 <= SFR T <= 1345 -> rows_around (SFR T) (fst (f_rows T)) (snd (f_rows T)).
Proof.
  intros hf h. rewrite (rows_exact T hf h). cbn [fst snd]. destruct (cell_spec (SFR T)) as [c1 c2]. split; [exists (cell_of (SFR T)); unfold WaterFacts.grid; lia|].
  destruct (ceil_cases (SFR T)) as [[e ->]|[l ->]]; [left; auto|right]. split; [|unfold WaterFacts.grid; lia]. split; [exact l|].
  rewrite grid_R in *. rewrite plus_IZR. lra.
Qed.

(** ** The numbers of the table *)
Definition decent (q : Q) : bool := Qle_bool (1 # 1000000) q && Qle_bool q 1000000 && (lit_size q <=? 1000)%Z.
Definition tame (p : string) (z : Z) : bool := Qle_bool (gnum p (z + 1)) (1622 * gnum p z) && Qle_bool (gnum p z) (1622 * gnum p (z + 1)).
Lemma decent_ok : forallb (fun z => forallb (fun p => decent (gnum p z)) nums) (zrange 0 108) = true.
Proof. vm_compute. reflexivity. Qed.
Lemma tame_ok : forallb (fun z => forallb (fun p => tame p z) nums) (zrange 0 107) = true.
Proof. vm_compute. reflexivity. Qed.
Lemma table_float p z : In p nums -> (0 <= z < 108)%Z -> let q := gnum p z in
  / 1000000 <= Q2R q <= 1000000 /\ finite64 (f_lit q) /\ Rabs (SFR (f_lit q) - Q2R q) <= / 2 ^ 53 * Q2R q.
Proof.
  intros hp hz q. pose proof (all_z _ _ _ decent_ok z ltac:(lia)) as h. rewrite forallb_forall in h. specialize (h p hp). fold q in h. unfold decent in h.
  apply andb_true_iff in h. destruct h as [h h3]. apply andb_true_iff in h. destruct h as [h1 h2]. apply Z.leb_le in h3.
  apply Qle_bool_iff, Qle_Rle in h1. apply Qle_bool_iff, Qle_Rle in h2.
  assert (e1 : Q2R (1 # 1000000) = / 1000000) by (unfold Q2R; cbn; lra). assert (e2 : Q2R 1000000 = 1000000) by (unfold Q2R; cbn; lra). rewrite e1 in h1. rewrite e2 in h2.
  split; [lra|]. destruct (f_lit_near q h3) as (a & b & _).
  - destruct (Qeq_bool q 0) eqn:e; [|reflexivity]. apply Qeq_bool_iff, Qeq_eqR in e. rewrite e, RMicromega.Q2R_0 in h1. lra.
  - split; [exact a|]. unfold near1 in b. rewrite (Rabs_pos_eq (Q2R q)) in b by lra. exact b.
Qed.
Lemma table_ratio p z : In p nums -> (0 <= z < 107)%Z -> Q2R (gnum p (z + 1)) <= 1622 * Q2R (gnum p z) /\ Q2R (gnum p z) <= 1622 * Q2R (gnum p (z + 1)).
Proof.
  intros hp hz. pose proof (all_z _ _ _ tame_ok z ltac:(lia)) as h. rewrite forallb_forall in h. specialize (h p hp). unfold tame in h.
  apply andb_true_iff in h. destruct h as [h1 h2]. apply Qle_bool_iff, Qle_Rle in h1. apply Qle_bool_iff, Qle_Rle in h2.
  assert (e : Q2R 1622 = 1622) by (unfold Q2R; cbn; lra). rewrite Q2R_mult, e in h1, h2. split; assumption.
Qed.

(** ** One interpolation *)
Lemma f_round v r : Rabs v <= 1000000000 -> rounded64 v r -> slight v r -> finite64 r /\ Rabs (SFR r - v) <= / 2 ^ 53 * Rabs v + p2 (-1075).
Proof. intros h hr hs. destruct (small_top v h) as [h1 h2]. split; [apply (proj1 hr h1)|apply hs, h2]. Qed.
(** In general: six roundings, each of a number of at most the size N. *)
Section Interp.
Variables (u N z a b d A B S Q P Y : R).
Hypothesis hu : 0 < u <= / 1000000.
Hypothesis hN : 0 < N.
Hypothesis hz : 0 <= z <= u * N / 100.
Hypothesis ha : 0 <= a <= N.
Hypothesis hb : 0 <= b <= N.
Hypothesis hd : 0 <= d <= 10.
Hypothesis hA : Rabs (A - a) <= u * a.
Hypothesis hB : Rabs (B - b) <= u * b.
Lemma uw : 0 < u * N /\ 0 < u * (u * N) <= u * N / 1000000.
Proof. assert (w : 0 < u * N) by (apply Rmult_lt_0_compat; lra). split; [exact w|]. split; [apply Rmult_lt_0_compat; lra|]. unfold Rdiv. rewrite (Rmult_comm (u * N) (/ _)). apply Rmult_le_compat_r; lra. Qed.
Lemma near_end x X : 0 <= x <= N -> Rabs (X - x) <= u * x -> - (u * N) <= X - x <= u * N.
Proof. intros h k. apply Rabs_le_inv in k. assert (u * x <= u * N) by (apply Rmult_le_compat_l; lra). lra. Qed.
Lemma small_mult x c : 0 <= c -> Rabs x <= N + c * (u * N) -> u * Rabs x <= u * N + c * (u * N) / 1000000.
Proof.
  intros hc h. destruct uw as [_ [_ w]]. apply Rle_trans with (u * (N + c * (u * N))); [apply Rmult_le_compat_l; lra|].
  replace (u * (N + c * (u * N))) with (u * N + c * (u * (u * N))) by ring. apply Rplus_le_compat_l.
  unfold Rdiv. rewrite (Rmult_assoc c). apply Rmult_le_compat_l; [exact hc|]. exact w.
Qed.
Hypothesis hS : Rabs (S - (B - A)) <= u * Rabs (B - A) + z.
Lemma err_S : Rabs (S - (b - a)) <= 4 * (u * N).
Proof.
  destruct uw as [w _]. pose proof (near_end a A ha hA) as e1. pose proof (near_end b B hb hB) as e2.
  assert (h : Rabs (B - A) <= N + 2 * (u * N)) by (apply Rabs_le; lra). pose proof (small_mult (B - A) 2 ltac:(lra) h) as k. apply Rabs_le_inv in hS. apply Rabs_le. lra.
Qed.
Hypothesis hQ : Rabs (Q - S / 10) <= u * Rabs (S / 10) + z.
Lemma err_Q : Rabs (Q - (b - a) / 10) <= 6 / 10 * (u * N).
Proof.
  destruct uw as [w _]. pose proof err_S as e. apply Rabs_le_inv in e. assert (h : Rabs S <= N + 4 * (u * N)) by (apply Rabs_le; lra). pose proof (small_mult S 4 ltac:(lra) h) as k.
  assert (hh : u * Rabs (S / 10) = u * Rabs S / 10). { unfold Rdiv. rewrite Rabs_mult, (Rabs_pos_eq (/ 10)) by lra. ring. }
  rewrite hh in hQ. apply Rabs_le_inv in hQ. apply Rabs_le. lra.
Qed.
Hypothesis hP : Rabs (P - d * Q) <= u * Rabs (d * Q) + z.
Lemma err_P : Rabs (P - d * ((b - a) / 10)) <= 8 * (u * N).
Proof.
  destruct uw as [w _]. pose proof err_Q as e.
  assert (h0 : Rabs (d * Q - d * ((b - a) / 10)) <= 6 * (u * N)).
  { replace (d * Q - d * ((b - a) / 10)) with (d * (Q - (b - a) / 10)) by ring. rewrite Rabs_mult, (Rabs_pos_eq d) by lra.
    apply Rle_trans with (10 * (6 / 10 * (u * N))); [|right; field]. apply Rmult_le_compat; try lra. apply Rabs_pos. }
  assert (h1 : Rabs (d * ((b - a) / 10)) <= N).
  { rewrite Rabs_mult, (Rabs_pos_eq d) by lra. apply Rle_trans with (10 * (N / 10)); [|right; field]. apply Rmult_le_compat; try lra; [apply Rabs_pos|]. apply Rabs_le. lra. }
  apply Rabs_le_inv in h0. apply Rabs_le_inv in h1.
  assert (h : Rabs (d * Q) <= N + 6 * (u * N)) by (apply Rabs_le; lra). pose proof (small_mult (d * Q) 6 ltac:(lra) h) as k.
  apply Rabs_le_inv in hP. apply Rabs_le. lra.
Qed.
Lemma interp_size : 0 <= a + d * ((b - a) / 10) <= N.
Proof.
  replace (a + d * ((b - a) / 10)) with (a * (1 - d / 10) + b * (d / 10)) by field.
  assert (0 <= a * (1 - d / 10)) by (apply Rmult_le_pos; lra). assert (0 <= b * (d / 10)) by (apply Rmult_le_pos; lra).
  assert (a * (1 - d / 10) <= N * (1 - d / 10)) by (apply Rmult_le_compat_r; lra). assert (b * (d / 10) <= N * (d / 10)) by (apply Rmult_le_compat_r; lra). lra.
Qed.
Hypothesis hY : Rabs (Y - (A + P)) <= u * Rabs (A + P) + z.
Lemma err_Y : Rabs (Y - (a + d * ((b - a) / 10))) <= 10.1 * (u * N).
Proof.
  destruct uw as [w _]. pose proof (near_end a A ha hA) as e1. pose proof err_P as e2. apply Rabs_le_inv in e2. pose proof interp_size as e3.
  assert (h : Rabs (A + P) <= N + 9 * (u * N)) by (apply Rabs_le; lra). pose proof (small_mult (A + P) 9 ltac:(lra) h) as k.
  apply Rabs_le_inv in hY. apply Rabs_le. lra.
Qed.
End Interp.

(** ** The answer *)
Lemma two53 : 0 < / 2 ^ 53 <= / 1000000.
Proof. split; [apply Rinv_0_lt_compat, pow_lt; lra|]. apply Rinv_le_contravar; [lra|]. change 2 with (IZR 2). rewrite pow_IZR. apply IZR_le. discriminate. Qed.
Lemma last_step y N err : 0 < N -> N <= 1622 * y -> Rabs err <= 10.1 * (/ 2 ^ 53 * N) -> Rabs err <= / 2 ^ 39 * Rabs y.
Proof.
  intros h0 h1 h2. assert (hy : 0 < y) by lra. rewrite (Rabs_pos_eq y) by lra.
  assert (e : / 2 ^ 39 = 16384 * / 2 ^ 53). { replace (2 ^ 53) with (2 ^ 14 * 2 ^ 39) by (rewrite <- pow_add; reflexivity). rewrite Rinv_mult. replace (2 ^ 14) with 16384 by (cbn; lra). field. }
  rewrite e. pose proof two53 as [w _]. apply Rle_trans with (1 := h2). assert (/ 2 ^ 53 * N <= / 2 ^ 53 * (1622 * y)) by (apply Rmult_le_compat_l; lra).
  assert (0 < / 2 ^ 53 * y) by (apply Rmult_lt_0_compat; lra). lra.
Qed.
Lemma tiny_rel N : / 1000000 <= N -> 0 <= p2 (-1075) <= / 2 ^ 53 * N / 100.
Proof.
  intro h. pose proof tiny_small as [a b]. split; [lra|].
  assert (u53 : / 2 ^ 53 > / 10 ^ 17). { apply Rlt_gt, Rinv_lt_contravar; [apply Rmult_lt_0_compat; apply pow_lt; lra|]. change 2 with (IZR 2). change 10 with (IZR 10). rewrite !pow_IZR. apply IZR_lt. reflexivity. }
  apply Rle_trans with (/ 10 ^ 17 * / 1000000 / 100).
  - apply Rlt_le, Rlt_le_trans with (1 := b). apply Rle_trans with (/ 10 ^ 25); [apply Rinv_le_contravar; [apply pow_lt; lra|apply Rle_pow; [lra|lia]]|].
    right. replace (10 ^ 25) with (10 ^ 17 * 10 ^ 6 * 100) by (replace 100 with (10 ^ 2) by (cbn; lra); rewrite <- !pow_add; reflexivity). rewrite !Rinv_mult. replace (10 ^ 6) with 1000000 by (cbn; lra). reflexivity.
  - unfold Rdiv. apply Rmult_le_compat_r; [lra|]. apply Rmult_le_compat; try lra.
Qed.
Lemma size_mix a b d : 0 < a -> 0 < b -> 0 <= d <= 10 -> b <= 1622 * a -> a <= 1622 * b -> Rmax a b <= 1622 * (a + d * ((b - a) / 10)).
Proof.
  intros h1 h2 hd h3 h4.
  assert (e : a + d * ((b - a) / 10) = a * (1 - d / 10) + b * (d / 10)) by field. rewrite e.
  assert (m : forall N, N <= 1622 * a -> N <= 1622 * b -> N <= 1622 * (a * (1 - d / 10) + b * (d / 10))).
  { intros N n1 n2. assert (N * (1 - d / 10) <= 1622 * a * (1 - d / 10)) by (apply Rmult_le_compat_r; lra). assert (N * (d / 10) <= 1622 * b * (d / 10)) by (apply Rmult_le_compat_r; lra). lra. }
  unfold Rmax. destruct (Rle_dec a b); apply m; lra.
Qed.
Lemma f_num T p : finite64 T -> 275 <= SFR T <= 1345 -> In p nums ->
  exists y, f_property WATER_PROPERTIES T (fst (f_rows T)) (snd (f_rows T)) p = Ok (FN y) /\ close_to (/ 2 ^ 39) (WN (interp p (SFR T))) (FN y).
Proof.
  intros hf h hp. rewrite (rows_exact T hf h). cbn [fst snd]. pose proof (cell_range _ h) as hc. destruct (cell_spec (SFR T)) as [s1 s2].
  unfold f_property. rewrite (cell_num _ p) by (lia || assumption). cbn [bind].
  assert (np : String.eqb p "Phase" = false). { apply numeric_nums in hp. destruct hp as [_ hp]. destruct (String.eqb_spec p "Phase"); [contradiction|reflexivity]. }
  destruct (table_float p (cell_of (SFR T)) hp ltac:(lia) : _ /\ _) as (a1 & a2 & a3). set (k := cell_of (SFR T)) in *.
  destruct (ceil_cases (SFR T)) as [[e ->]|[hl ->]].
  - fold k in e |- *. rewrite (cell_num _ p) by (lia || assumption). cbn [bind fcell_eqb]. rewrite (proj2 (SFeqb_eq _ _ a2 a2) eq_refl). eexists. split; [reflexivity|]. cbn [close_to fcell].
    split; [exact a2|]. assert (ei : interp p (SFR T) = Q2R (gnum p k)) by (unfold interp; fold k; rewrite <- e; ring). rewrite ei.
    apply (last_step _ (Q2R (gnum p k))); [lra|lra|]. apply Rle_trans with (1 := a3). pose proof two53 as [w _]. assert (0 < / 2 ^ 53 * Q2R (gnum p k)) by (apply Rmult_lt_0_compat; lra). lra.
  - pose proof (last_cell _ h hl) as lc. fold k in lc, hl |- *. rewrite (cell_num (k + 1) p) by (lia || assumption). cbn [bind fcell_eqb]. rewrite np. cbn [negb].
    destruct (table_float p (k + 1) hp ltac:(lia) : _ /\ _) as (b1 & b2 & b3). destruct (table_ratio p k hp ltac:(lia)) as [r1 r2].
    set (a := Q2R (gnum p k)) in *. set (b := Q2R (gnum p (k + 1))) in *. set (A := f_lit (gnum p k)) in *. set (B := f_lit (gnum p (k + 1))) in *.
    set (d := SFR T - IZR (WaterFacts.grid k)). assert (hd : 0 <= d <= 10) by (unfold d; lra). set (N := Rmax a b).
    assert (ei : interp p (SFR T) = a + d * ((b - a) / 10)) by reflexivity. rewrite ei.
    assert (aN : a <= N) by apply Rmax_l. assert (bN : b <= N) by apply Rmax_r. assert (NN : N <= 1000000) by (apply Rmax_lub; lra).
    pose proof (size_mix a b d ltac:(lra) ltac:(lra) hd r1 r2) as hN. fold N in hN.
    pose proof two53 as hu. pose proof (tiny_rel N ltac:(lra)) as hz.
    destruct (uw (/ 2 ^ 53) N hu ltac:(lra)) as [w0 w1].
    assert (wb : / 2 ^ 53 * N <= 1). { apply Rle_trans with (/ 1000000 * 1000000); [|lra]. apply Rmult_le_compat; lra. }
    pose proof (near_end (/ 2 ^ 53) N hu a (SFR A) ltac:(lra) a3) as na. pose proof (near_end (/ 2 ^ 53) N hu b (SFR B) ltac:(lra) b3) as nb.
    destruct (SFeqb A B) eqn:eq.
    + apply (SFeqb_eq _ _ a2 b2) in eq. eexists. split; [reflexivity|]. cbn [close_to fcell]. split; [exact a2|]. fold A.
      apply (last_step _ N); [lra|exact hN|].
      assert (dd : Rabs (d * ((b - a) / 10)) <= 2 * (/ 2 ^ 53 * N)).
      { rewrite Rabs_mult, (Rabs_pos_eq d) by lra. apply Rle_trans with (10 * (2 * (/ 2 ^ 53 * N) / 10)); [|right; field; apply pow_nonzero; lra].
        apply Rmult_le_compat; try lra; [apply Rabs_pos|]. apply Rabs_le. lra. }
      apply Rabs_le_inv in dd. apply Rabs_le. lra.
    + assert (hh : (WaterFacts.grid (k + 1) - WaterFacts.grid k = 10)%Z) by (unfold WaterFacts.grid; lia). rewrite hh. change (10 =? 0)%Z with false. cbv iota. eexists. split; [reflexivity|].
      destruct (f_int_small 10) as [i1 i2]; [lia|].
      destruct (exact_below T (WaterFacts.grid k) hf h) as [d1 d2]; [unfold WaterFacts.grid; lia|exact s1|]. fold d in d2. set (D := SFsub 53 1024 T (f_int (WaterFacts.grid k))) in *.
      destruct (sub_full B A b2 a2) as [q1 q2]. set (S := SFsub 53 1024 B A) in *. destruct (f_round (SFR B - SFR A) _ ltac:(apply Rabs_le; lra) q1 q2) as [S1 S2].
      pose proof (err_S _ N _ a b (SFR A) (SFR B) (SFR S) hu ltac:(lra) hz ltac:(lra) ltac:(lra) a3 b3 S2) as eS. apply Rabs_le_inv in eS.
      destruct (div_full S (f_int 10) S1 i1 ltac:(rewrite i2; lra)) as [q3 q4]. rewrite i2 in q3, q4. set (Q := SFdiv 53 1024 S (f_int 10)) in *.
      destruct (f_round (SFR S / 10) _ ltac:(apply Rabs_le; lra) q3 q4) as [Q1 Q2].
      pose proof (err_Q _ N _ a b (SFR A) (SFR B) (SFR S) (SFR Q) hu ltac:(lra) hz ltac:(lra) ltac:(lra) a3 b3 S2 Q2) as eQ. apply Rabs_le_inv in eQ.
      destruct (mul_full D Q d1 Q1) as [q5 q6]. rewrite d2 in q5, q6. set (P := SFmul 53 1024 D Q) in *.
      assert (dQ : Rabs (d * SFR Q) <= 1000000000).
      { rewrite Rabs_mult, (Rabs_pos_eq d) by lra. apply Rle_trans with (10 * 1000001); [|lra]. apply Rmult_le_compat; try lra; [apply Rabs_pos|]. apply Rabs_le. lra. }
      destruct (f_round _ _ dQ q5 q6) as [P1 P2].
      pose proof (err_P _ N _ a b d (SFR A) (SFR B) (SFR S) (SFR Q) (SFR P) hu ltac:(lra) hz ltac:(lra) ltac:(lra) hd a3 b3 S2 Q2 P2) as eP.
      pose proof (interp_size N a b d ltac:(lra) ltac:(lra) hd) as sz. apply Rabs_le_inv in eP.
      destruct (add_full A P a2 P1) as [q7 q8]. set (Y := SFadd 53 1024 A P) in *. destruct (f_round (SFR A + SFR P) _ ltac:(apply Rabs_le; lra) q7 q8) as [Y1 Y2].
      cbn [close_to]. split; [exact Y1|]. apply (last_step _ N); [lra|exact hN|].
      exact (err_Y _ N _ a b d (SFR A) (SFR B) (SFR S) (SFR Q) (SFR P) (SFR Y) hu ltac:(lra) hz ltac:(lra) ltac:(lra) hd a3 b3 S2 Q2 P2 Y2).
Qed.
Lemma f_phase T : finite64 T -> 275 <= SFR T <= 1345 ->
  f_property WATER_PROPERTIES T (fst (f_rows T)) (snd (f_rows T)) "Phase" = Ok (FT (phase_of (SFR T))).
Proof.
  intros hf h. pose proof (one_phase (SFR T) h) as e. rewrite (rows_exact T hf h). cbn [fst snd]. pose proof (cell_range _ h) as hc.
  unfold one_property in e. unfold f_property. rewrite cell_phase in e |- * by lia. cbn [bind] in *.
  destruct (ceil_cases (SFR T)) as [[_ ec]|[hl ec]]; rewrite ec in *; [|pose proof (last_cell _ h hl)]; rewrite cell_phase in e |- * by lia; cbn [bind cell_eqb fcell_eqb] in *;
  destruct (String.eqb _ _); cbn in *; congruence.
Qed.
Lemma int_range : finite64 (f_int 275) /\ SFR (f_int 275) = 275 /\ finite64 (f_int 1345) /\ SFR (f_int 1345) = 1345.
Proof. destruct (f_int_small 275) as [a b]; [lia|]. destruct (f_int_small 1345) as [c d]; [lia|]. auto. Qed.
Lemma water_float T : finite64 T -> 275 <= SFR T <= 1345 -> exists l l', get_water_properties (SFR T) = Ok l /\ f_water_properties T = Ok l' /\ Forall2 (close_to (/ 2 ^ 39)) l l'.
Proof.
  intros hf h. destruct int_range as (a & b & c & d). rewrite (water_ok _ h). unfold f_water_properties.
  rewrite (proj2 (SFleb_le _ _ a hf)) by lra. rewrite (proj2 (SFleb_le _ _ hf c)) by lra. cbn [andb].
  assert (g : forall p, In p nums -> exists y, f_property WATER_PROPERTIES T (fst (f_rows T)) (snd (f_rows T)) p = Ok (FN y) /\ close_to (/ 2 ^ 39) (WN (interp p (SFR T))) (FN y)) by (intros; apply f_num; assumption).
  unfold WATER_PROPERTY_KEYS. cbn [f_properties_of]. change k_phase with "Phase". rewrite (f_phase T hf h).
  destruct (g k_p) as (y1 & -> & c1); [vm_compute; tauto|]. destruct (g k_cp) as (y2 & -> & c2); [vm_compute; tauto|]. destruct (g k_cv) as (y3 & -> & c3); [vm_compute; tauto|].
  destruct (g k_rho) as (y4 & -> & c4); [vm_compute; tauto|]. destruct (g k_h) as (y5 & -> & c5); [vm_compute; tauto|]. destruct (g k_s) as (y6 & -> & c6); [vm_compute; tauto|].
  destruct (g k_u) as (y7 & -> & c7); [vm_compute; tauto|]. destruct (g k_k) as (y8 & -> & c8); [vm_compute; tauto|]. destruct (g k_mu) as (y9 & -> & c9); [vm_compute; tauto|].
  destruct (g k_v) as (y10 & -> & c10); [vm_compute; tauto|]. cbn [bind]. eexists. eexists. split; [reflexivity|]. split; [reflexivity|]. unfold answer.
  constructor; [cbn [close_to]; split; [exact hf|]; rewrite Rminus_diag_eq, Rabs_R0 by reflexivity; apply Rmult_le_pos; [left; apply Rinv_0_lt_compat, pow_lt; lra|apply Rabs_pos]|].
  repeat first [assumption|reflexivity|constructor].
Qed.
Lemma water_float_out T : T = S754_nan \/ T = S754_infinity false \/ T = S754_infinity true \/ (finite64 T /\ (SFR T < 275 \/ 1345 < SFR T)) ->
  f_water_properties T = Raise EOutOfRangeProperty.
Proof.
  destruct int_range as (a & b & c & d). intros [->|[->|[->|[hf h]]]]; [reflexivity..|]. unfold f_water_properties.
  destruct (SFleb (f_int 275) T) eqn:e1; [|reflexivity]. destruct (SFleb T (f_int 1345)) eqn:e2; [|reflexivity].
  apply (SFleb_le _ _ a hf) in e1. apply (SFleb_le _ _ hf c) in e2. lra.
Qed.
