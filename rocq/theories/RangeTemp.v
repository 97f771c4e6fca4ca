(** * RangeTemp: temperatures in binary64 *)
From Coq Require Import String Ascii List ZArith QArith Qcanon Bool Reals Qreals Lia Lra.
From Coq Require Import Floats.SpecFloat.
From Verif Require Import Py Num NumFacts UnitsData UnitsStruct Units Expr Rounding RoundSpec RoundFacts RoundErr RoundCases Range RangeSpec FloatExp FloatRound B64Facts RangeFacts ConvFacts ConvLaws UnitConvSpec.
Import ListNotations.
Local Open Scope string_scope.
Local Open Scope list_scope.
Local Open Scope R_scope.
Local Notation p2 := (powerRZ 2).

(** ** Differences, and sums that nearly cancel *)
Lemma sub_near x y : finite64 x -> finite64 y -> (SFR x - SFR y = 0 \/ mid (SFR x - SFR y)) ->
  finite64 (SFsub 53 1024 x y) /\ near1 (/ 2 ^ 53) (SFR x - SFR y) (SFR (SFsub 53 1024 x y)).
Proof.
  intros hx hy hm. destruct x as [s|s| |s m e], y as [t|t| |t n f]; try contradiction; cbn [SFsub].
  - replace (SFR (S754_zero s) - SFR (S754_zero t)) with 0 by (cbn; ring). destruct (Bool.eqb s (negb t)); (split; [exact I|apply near_self]).
  - replace (SFR (S754_zero s) - SFR (S754_finite t n f)) with (SFR (S754_finite (negb t) n f)) by (cbn; destruct t; cbn; ring). split; [exact hy|apply near_self].
  - replace (SFR (S754_finite s m e) - SFR (S754_zero t)) with (SFR (S754_finite s m e)) by (cbn; ring). split; [exact hx|apply near_self].
  - set (z := (cond_Zopp s _ - cond_Zopp t _)%Z). set (g := Z.min e f).
    assert (v : IZR z * p2 g = SFR (S754_finite s m e) - SFR (S754_finite t n f)).
    { unfold z. rewrite minus_IZR, Rmult_minus_distr_r, !cond_opp. fold g. rewrite !align by (unfold g; lia). reflexivity. }
    rewrite <- v in *. destruct (normalize z g false) as (a & b & _); [|auto].
    destruct hm as [hm|hm]; [left|right; exact hm]. apply Rmult_integral in hm. pose proof (p2_gt g). destruct hm as [hm|hm]; [apply eq_IZR, hm|lra].
Qed.
Lemma no_cancel x y : finite64 x -> finite64 y -> p2 (-900) <= Rabs (SFR x) -> SFR x + SFR y = 0 \/ p2 (-960) <= Rabs (SFR x + SFR y).
Proof.
  intros hx hy h. destruct (Rlt_le_dec (Rabs (SFR y)) (Rabs (SFR x) * / 2)) as [l|l].
  - right. apply Rle_trans with (p2 (-901)); [apply p2_le; lia|]. replace (p2 (-901)) with (p2 (-900) * / 2).
    + pose proof (Rabs_triang (SFR x + SFR y) (- SFR y)) as t. rewrite Rabs_Ropp in t. replace (SFR x + SFR y + - SFR y) with (SFR x) in t by ring. lra.
    + replace (-901)%Z with (-900 + - (1))%Z by lia. rewrite p2_add, p2_opp. change (p2 1) with (2 ^ 1). rewrite pow_1. reflexivity.
  - assert (hy2 : p2 (-901) <= Rabs (SFR y)).
    { apply Rle_trans with (2 := l). replace (-901)%Z with (-900 + - (1))%Z by lia. rewrite p2_add, p2_opp. change (p2 1) with (2 ^ 1). rewrite pow_1. lra. }
    pose proof (p2_gt (-900)). pose proof (p2_gt (-901)).
    destruct x as [s|s| |s m e]; try contradiction; [cbn [SFR] in h; rewrite Rabs_R0 in h; lra|].
    destruct y as [t|t| |t n f]; try contradiction; [cbn [SFR] in hy2; rewrite Rabs_R0 in hy2; lra|].
    assert (le : forall s m e k, finite64 (S754_finite s m e) -> (-1020 <= k)%Z -> p2 k <= Rabs (SFR (S754_finite s m e)) -> (k - 53 < e)%Z).
    { intros s0 m0 e0 k h0 hk h1. pose proof (canonical_digits s0 m0 e0 h0 (Rle_trans _ _ _ (p2_le _ _ hk) h1)) as d. rewrite SFR_abs in h1.
      pose proof (digits_spec m0) as ds. cbn [Zdigits2] in d. rewrite d in ds.
      assert (q : p2 k < p2 (53 + e0)); [|apply p2_lt_inv in q; lia].
      apply Rle_lt_trans with (1 := h1). rewrite p2_add. apply Rmult_lt_compat_r; [apply p2_gt|]. rewrite p2_nonneg by lia. apply IZR_lt. lia. }
    pose proof (le s m e (-900)%Z hx ltac:(lia) h) as e1. pose proof (le t n f (-901)%Z hy ltac:(lia) hy2) as f1. set (g := Z.min e f).
    assert (v : exists z, SFR (S754_finite s m e) + SFR (S754_finite t n f) = IZR z * p2 g).
    { exists (cond_Zopp s (Zpos (fst (shl_align m e g))) + cond_Zopp t (Zpos (fst (shl_align n f g))))%Z.
      rewrite plus_IZR, Rmult_plus_distr_r, !cond_opp, !align by (unfold g; lia). reflexivity. }
    destruct v as (z & ->). destruct (Z.eq_dec z 0) as [->|nz]; [left; ring|right]. rewrite Rabs_mult, <- abs_IZR, (Rabs_pos_eq (p2 g)) by (left; apply p2_gt).
    apply Rle_trans with (p2 g); [apply p2_le; unfold g; lia|]. rewrite <- (Rmult_1_l (p2 g)) at 1. apply Rmult_le_compat_r; [left; apply p2_gt|apply IZR_le; lia].
Qed.

(** ** An arithmetic that is exact but for one product or quotient *)
Definition spike_mul (y y' z : R) : arith := {|
  a_add := Rplus; a_sub := Rminus; a_mul := fun s t => if Req_EM_T s y then if Req_EM_T t y' then z else s * t else s * t;
  a_div := Rdiv; a_lit := Q2R; a_pow := Rpowq |}.
Definition spike_div (y : R) (q : Q) (l z : R) : arith := {|
  a_add := Rplus; a_sub := Rminus; a_mul := Rmult;
  a_div := fun s t => if Req_EM_T s y then if Req_EM_T t l then z else s / t else s / t;
  a_lit := fun r => if (Qnum r =? Qnum q)%Z && Pos.eqb (Qden r) (Qden q) then l else Q2R r; a_pow := Rpowq |}.
Lemma near_same u v : 0 <= u -> near1 u v v.
Proof. intro h. unfold near1. replace (v - v) with 0 by ring. rewrite Rabs_R0. apply Rmult_le_pos; [exact h|apply Rabs_pos]. Qed.
Lemma spike_mul_ok u y y' z : 0 <= u -> near1 u (y * y') z -> accurate u (spike_mul y y' z).
Proof.
  intros h hz. unfold accurate. cbn [a_add a_sub a_mul a_div a_lit a_pow spike_mul]. split; [intros; apply near_same, h|]. split; [intros; apply near_same, h|].
  split; [|split; [intros; apply near_same, h|split; [intros; apply near_same, h|split; [intros; unfold Q2R; cbn; field|]]]].
  - intros s t. destruct (Req_EM_T s y) as [->|]; [destruct (Req_EM_T t y') as [->|]; [exact hz|]|]; apply near_same, h.
  - intros s q. destruct (Rpowq s q); [eexists; split; [reflexivity|apply near_same, h]|reflexivity].
Qed.
Lemma spike_div_ok u y q l z : 0 <= u -> Qden q <> 1%positive -> near1 u (Q2R q) l -> near1 u (y / l) z -> accurate u (spike_div y q l z).
Proof.
  intros h hq hl hz. unfold accurate. cbn [a_add a_sub a_mul a_div a_lit a_pow spike_div]. do 3 (split; [intros; apply near_same, h|]). split; [|split; [|split]].
  - intros s t _. destruct (Req_EM_T s y) as [->|]; [destruct (Req_EM_T t l) as [->|]; [exact hz|]|]; apply near_same, h.
  - intro r. destruct (Z.eqb_spec (Qnum r) (Qnum q)) as [e|]; [|apply near_same, h]. destruct (Pos.eqb_spec (Qden r) (Qden q)) as [e'|]; [|apply near_same, h].
    cbn [andb]. replace r with q; [exact hl|]. destruct r, q; cbn in *; congruence.
  - intros k _. destruct (Pos.eqb_spec (Qden (inject_Z k)) (Qden q)) as [e'|]; [cbn in e'; congruence|]. rewrite andb_false_r. unfold Q2R. cbn. field.
  - intros s r. destruct (Rpowq s r); [eexists; split; [reflexivity|apply near_same, h]|reflexivity].
Qed.

Section Temp.
Variables (u : R) (allowed : Qc -> bool) (p : spec_float -> Qc -> res spec_float).
Hypothesis hu : / 2 ^ 53 <= u <= / 2 ^ 40.
Hypothesis hp : pow_good u allowed p.
Hypothesis one_allowed : allowed (qc 1) = true.
Let u01 := u01 u hu.
Let u_small := u_small u hu.
Lemma u_4 : u <= / 10000.
Proof. pose proof u_small. lra. Qed.
Lemma weaken x y : near1 (/ 2 ^ 53) x y -> near1 u x y.
Proof. unfold near1. intro h. apply Rle_trans with (1 := h). apply Rmult_le_compat_r; [apply Rabs_pos|apply hu]. Qed.
(** An error of k u M, and a size. *)
Definition tmp (K : Z) (M k x : R) (y : spec_float) : Prop := finite64 y /\ ab u M k x (SFR y) /\ sized K (SFR y).
Lemma sized_near K x y : near1 u x y -> sized K x -> sized (K + 1) y.
Proof. intro h. apply (sized_within u hu 1); [cbn; lia|apply (near_within u u01), h]. Qed.
Lemma t_lit q : (Qeq_bool q 0 = false) -> (lit_size q <=? 1000)%Z = true -> tmp (lit_size q + 1) (Rabs (Q2R q)) 1 (Q2R q) (f_lit q).
Proof.
  intros h0 h. apply Z.leb_le in h. destruct (f_lit_near q h h0) as (a & b & _). apply weaken in b. split; [exact a|]. split.
  - split; [lra|]. unfold near1 in b. lra.
  - apply (sized_near _ _ _ b), lit_sized, h0.
Qed.
Lemma t_round K M k x y z : tmp K M k x y -> (K <= 1010)%Z -> 0 <= k <= 20 -> finite64 z -> near1 u (SFR y) (SFR z) -> tmp (K + 1) M (k + 1.01) x z.
Proof.
  intros (_ & h & s) hK hk f n. split; [exact f|]. split; [apply (ab_round u u01 u_4 _ _ _ (SFR y)); [lra|assumption|assumption]|apply (sized_near _ _ _ n), s].
Qed.
Lemma sum_size K c y : finite64 c -> finite64 y -> p2 (-900) <= Rabs (SFR c) -> Rabs (SFR c) <= p2 20 -> sized K (SFR y) -> sized (Z.max K 960 + 1) (SFR y + SFR c).
Proof.
  intros fc fy c1 c2 s. destruct (no_cancel c y fc fy c1) as [e|e]; [left; rewrite Rplus_comm; exact e|right]. rewrite Rplus_comm. split.
  - apply Rle_trans with (2 := e). apply p2_le. lia.
  - apply Rle_trans with (1 := Rabs_triang _ _). set (L := Z.max K 960). rewrite p2_add. change (p2 1) with (2 ^ 1). rewrite pow_1.
    assert (Rabs (SFR c) <= p2 L) by (apply Rle_trans with (1 := c2); apply p2_le; unfold L; lia).
    assert (Rabs (SFR y) <= p2 L); [|lra]. destruct s as [->|(_ & s)]; [rewrite Rabs_R0; left; apply p2_gt|apply Rle_trans with (1 := s); apply p2_le; unfold L; lia].
Qed.
Lemma lit_range q : Qeq_bool q 0 = false -> (lit_size q <=? 19)%Z = true -> p2 (-900) <= Rabs (SFR (f_lit q)) <= p2 20.
Proof.
  intros h0 h. pose proof h as h'. apply Z.leb_le in h'. destruct (t_lit q h0) as (f & _ & s); [apply Z.leb_le; lia|].
  apply (sized_mono _ 20) in s; [|lia]. destruct s as [z|(s1 & s2)].
  - destruct (f_lit_near q ltac:(lia) h0) as (_ & n & _). rewrite z in n. unfold near1 in n. rewrite Rminus_0_l, Rabs_Ropp in n.
    assert (0 < Rabs (Q2R q)). { apply Rabs_pos_lt. intro e. apply Qeq_bool_neq in h0. apply h0. apply eqR_Qeq. rewrite e, q2r_0. reflexivity. }
    assert (/ 2 ^ 53 < 1) by (rewrite <- Rinv_1; apply Rinv_lt_contravar; [rewrite Rmult_1_l; apply pow_lt; lra|]; rewrite (pow_IZR 2 53); apply IZR_lt; reflexivity). nra.
  - split; [apply Rle_trans with (2 := s1); apply p2_le; lia|exact s2].
Qed.
Lemma t_add K M k x y q : tmp K M k x y -> Qeq_bool q 0 = false -> (lit_size q <=? 19)%Z = true -> (K <=? 1005)%Z = true -> 0 <= k <= 15 ->
  tmp (Z.max K 960 + 2) (M + Rabs (Q2R q)) (k + 1 + 1.01) (x + Q2R q) (SFadd 53 1024 y (f_lit q)).
Proof.
  intros (f & h & s) h0 h1 hK hk. apply Z.leb_le in hK. destruct (t_lit q h0) as (fq & hq & _); [apply Z.leb_le; apply Z.leb_le in h1; lia|].
  destruct (lit_range q h0 h1) as (c1 & c2). pose proof (sum_size K (f_lit q) y fq f c1 c2 s) as sz.
  destruct (add_near y (f_lit q) f fq) as (fr & n); [apply (sized_mid (Z.max K 960 + 1)); [lia|exact sz]|]. apply weaken in n.
  replace (Z.max K 960 + 2)%Z with (Z.max K 960 + 1 + 1)%Z by lia. split; [exact fr|]. split; [|apply (sized_near _ _ _ n), sz].
  apply (ab_round u u01 u_4 _ _ _ (SFR y + SFR (f_lit q))); [lra| |exact n]. apply (ab_sum u u01 _ k _ 1); try assumption; lra.
Qed.
Lemma t_sub K M k x y q : tmp K M k x y -> Qeq_bool q 0 = false -> (lit_size q <=? 19)%Z = true -> (K <=? 1005)%Z = true -> 0 <= k <= 15 ->
  tmp (Z.max K 960 + 2) (M + Rabs (Q2R q)) (k + 1 + 1.01) (x - Q2R q) (SFsub 53 1024 y (f_lit q)).
Proof.
  intros (f & h & s) h0 h1 hK hk. apply Z.leb_le in hK. destruct (t_lit q h0) as (fq & hq & _); [apply Z.leb_le; apply Z.leb_le in h1; lia|].
  destruct (lit_range q h0 h1) as (c1 & c2). destruct (opp_exact _ fq) as (fo & vo). rewrite <- (Rabs_Ropp (SFR (f_lit q))), <- vo in c1, c2.
  pose proof (sum_size K (SFopp (f_lit q)) y fo f c1 c2 s) as sz. rewrite vo in sz. change (SFR y + - SFR (f_lit q)) with (SFR y - SFR (f_lit q)) in sz.
  destruct (sub_near y (f_lit q) f fq) as (fr & n); [apply (sized_mid (Z.max K 960 + 1)); [lia|exact sz]|]. apply weaken in n.
  replace (Z.max K 960 + 2)%Z with (Z.max K 960 + 1 + 1)%Z by lia. split; [exact fr|]. split; [|apply (sized_near _ _ _ n), sz].
  apply (ab_round u u01 u_4 _ _ _ (SFR y - SFR (f_lit q))); [lra| |exact n]. unfold Rminus. apply (ab_sum u u01 _ k _ 1); try lra; [assumption|apply ab_opp; assumption].
Qed.
Lemma mul_spike M k M' k' x y x' y' z : 0 <= k <= 20 -> 0 <= k' <= 20 -> ab u M k x y -> ab u M' k' x' y' -> near1 u (y * y') z -> ab u (M * M') (k + k' + 1.06) (x * x') z.
Proof.
  intros hk hk' h h' n. pose proof (ab_mul u (spike_mul y y' z) u01 (spike_mul_ok u y y' z (proj1 u01) n) u_4 M k M' k' x y x' y' hk hk' h h') as r.
  cbn [a_mul spike_mul] in r. destruct (Req_EM_T y y) as [_|c]; [|congruence]. destruct (Req_EM_T y' y') as [_|c]; [|congruence]. exact r.
Qed.
Lemma t_mul K M k x y K' M' k' x' y' : tmp K M k x y -> tmp K' M' k' x' y' -> (0 <=? K)%Z && (K <=? 1000)%Z && (K + K' <=? 1010)%Z = true -> 0 <= k <= 20 -> 0 <= k' <= 20 ->
  tmp (K + K' + 1) (M * M') (k + k' + 1.06) (x * x') (SFmul 53 1024 y y').
Proof.
  intros (f & h & s) (f' & h' & s') hK hk hk'. apply andb_prop in hK. destruct hK as (hK & hK3). apply andb_prop in hK. destruct hK as (hK1 & hK2).
  apply Z.leb_le in hK1, hK2, hK3. pose proof (sized_mul _ _ _ _ s s') as sz. destruct (mul_near y y' f f') as (fr & n).
  - intro nz. destruct s as [e|(e & _)]; [contradiction|]. apply Rle_trans with (2 := e). apply p2_le. lia.
  - apply (sized_mid (K + K')); [lia|exact sz].
  - apply weaken in n. split; [exact fr|]. split; [apply (mul_spike M k M' k' x (SFR y) x' (SFR y')); assumption|apply (sized_near _ _ _ n), sz].
Qed.
Lemma t_over K M k x y q : tmp K M k x y -> (Qle_bool q 0 = false) -> Pos.eqb (Qden q) 1 = false -> (lit_size q <=? 10)%Z = true -> (0 <=? K)%Z && (K <=? 990)%Z = true -> 0 <= k <= 20 ->
  tmp (K + 20) (M / Q2R q) (k + 2.05) (x / Q2R q) (SFdiv 53 1024 y (f_lit q)).
Proof.
  intros (f & h & s) hq hd hl hK hk. apply andb_prop in hK. destruct hK as (hK1 & hK2). apply Z.leb_le in hK1, hK2, hl. apply Pos.eqb_neq in hd.
  assert (q0 : (0 < q)%Q) by (apply Qnot_le_lt; intro c; apply Qle_bool_iff in c; congruence).
  assert (h0 : Qeq_bool q 0 = false) by (destruct (Qeq_bool q 0) eqn:e; [apply Qeq_bool_iff in e; rewrite e in q0; discriminate|reflexivity]).
  destruct (t_lit q h0) as (fq & _ & sq); [apply Z.leb_le; lia|]. destruct (f_lit_near q ltac:(lia) h0) as (_ & nq & _). apply weaken in nq.
  assert (nz : SFR (f_lit q) <> 0).
  { destruct (lit_range q h0) as (c1 & _); [apply Z.leb_le; lia|]. intro e. rewrite e, Rabs_R0 in c1. pose proof (p2_gt (-900)). lra. }
  pose proof (sized_div _ _ _ _ nz s sq) as sz. destruct (div_near y (f_lit q) f fq nz) as (fr & n); [apply (sized_mid (K + (lit_size q + 1))); [lia|exact sz]|].
  apply weaken in n. split; [exact fr|]. split; [|apply (sized_mono (K + (lit_size q + 1) + 1)); [lia|apply (sized_near _ _ _ n), sz]].
  pose proof (ab_over u (spike_div (SFR y) q (SFR (f_lit q)) (SFR (SFdiv 53 1024 y (f_lit q)))) u01 (spike_div_ok u _ q _ _ (proj1 u01) hd nq n) u_4 M k x (SFR y) q q0 hk h) as r.
  cbn [a_div a_lit spike_div] in r. rewrite Z.eqb_refl, Pos.eqb_refl in r. cbn [andb] in r.
  destruct (Req_EM_T (SFR y) (SFR y)) as [_|c]; [|congruence]. destruct (Req_EM_T (SFR (f_lit q)) (SFR (f_lit q))) as [_|c]; [|congruence]. exact r.
Qed.
Lemma t_in v y : finite64 y -> SFR y = v -> sized 900 v -> tmp 900 (Rabs v) 0 v y.
Proof. intros f <- s. split; [exact f|]. split; [apply ab_in|exact s]. Qed.
Lemma t_pow (P : res spec_float -> Prop) K M k x y q : tmp K M k x y -> 0 <= k <= 20 -> ev q = qc 1 -> (K <=? 1009)%Z = true ->
  (forall z, tmp (K + 1) M (k + 1.01) x z -> P (Ok z)) -> P (p y (ev q)).
Proof.
  intros h hk hq hK hP. apply Z.leb_le in hK. pose proof h as (f & _ & s). rewrite hq. pose proof (hp y (qc 1) f one_allowed) as g. rewrite <- hq, (pow_one _ q hq), hq in g.
  destruct g as (z & -> & fz & nz); [apply (sized_mono K); [lia|exact s]|]. apply hP. apply (t_round K M k x y); try assumption; lia.
Qed.
Ltac build := lazymatch goal with
  | |- tmp _ _ _ _ (SFadd 53 1024 _ (f_lit _)) => eapply t_add; [build|reflexivity|reflexivity|reflexivity|]
  | |- tmp _ _ _ _ (SFsub 53 1024 _ (f_lit _)) => eapply t_sub; [build|reflexivity|reflexivity|reflexivity|]
  | |- tmp _ _ _ _ (SFmul 53 1024 _ _) => eapply t_mul; [build|build|reflexivity| |]
  | |- tmp _ _ _ _ (SFdiv 53 1024 _ (f_lit _)) => eapply t_over; [build|reflexivity|reflexivity|reflexivity|reflexivity|]
  | |- tmp _ _ _ _ (f_lit _) => apply t_lit; reflexivity
  | h : tmp _ _ _ _ ?y |- tmp _ _ _ _ ?y => exact h
  end.
Ltac stepper := match goal with |- context [p ?YY ?qq] =>
  pattern (p YY qq); eapply t_pow; [build|lra|reflexivity|reflexivity|intros ? ?; cbn [bind]] end.
Lemma binary_temperature s t w : uc w = Temperature -> un w = tname s -> ue w = eint 1 -> finite64 (uv w) -> sized 900 (SFR (uv w)) ->
  exists r r', unit_convert_to tables0 (UO (uc w) (SFR (uv w)) (un w) (ue w)) (tname t) = Ok r /\ bunit p w (tname t) = Ok r' /\
    uc r' = uc r /\ un r' = un r /\ ue r' = ue r /\ finite64 (uv r') /\ Rabs (SFR (uv r') - uv r) <= 12 * u * (2 * Rabs (SFR (uv w)) + 1200).
Proof.
  destruct w as [c y n e]. cbn [uc uv un ue]. intros -> -> -> fy sy. remember (SFR y) as v eqn:ev. symmetry in ev.
  assert (q : forall x, Rpowq x (Py.ev (eint 1)) = Ok x) by (intro; apply pow_one; reflexivity).
  assert (zero : 0 <= u * (2 * Rabs v + 1200)) by (apply Rmult_le_pos; [pose proof u_small; lra|pose proof (Rabs_pos v); lra]).
  pose proof (t_in v y fy ev sy) as ty.
  unfold bunit, unit_convert_to.
  destruct s, t; cbn [tname mem_str existsb UNIT_COMPOSITES String.eqb Ascii.eqb Bool.eqb andb orb un has_char uc];
    change (has_char "^" "K") with false; change (has_char "^" "C") with false; change (has_char "^" "F") with false; change (has_char "^" "R") with false;
    cbv iota; unfold unit_convert_core; cbn [un uc uv standard String.eqb Ascii.eqb Bool.eqb];
    try (do 2 eexists; repeat (split; [reflexivity|]); cbn [uv]; rewrite ev; replace (v - v) with 0 by ring; rewrite Rabs_R0; split; [exact fy|lra]).
  all: unfold from_val, to_val; cbn [tab_get from_standard to_standard tables0 from_standard0 to_standard0 dict_get String.eqb Ascii.eqb Bool.eqb bind
      nq nadd nsub nmul ndiv npow Rnum Bpow times over]; unfold times, over; cbn [bind nmul ndiv nq Rnum Bpow]; rewrite ?q; cbn [bind]; rewrite ?q; cbn [bind].
  all: stepper; try stepper.
  all: try (split; lra); cbn [mk_unit bind]; do 2 eexists; repeat (split; [reflexivity|]); cbn [uv].
  all: match goal with h : tmp _ _ _ _ ?z |- finite64 ?z /\ Rabs (SFR ?z - _) <= _ => split; [exact (proj1 h)|eapply (ab_end u u01 _ _ _ _ _ (proj1 (proj2 h)))] end.
  all: rewrite ?lit_abs by (vm_compute; discriminate); unfold Q2R; cbn [Qnum Qden]; pose proof (Rabs_pos v); lra.
Qed.
End Temp.
Lemma warm_case : let w := UO Temperature (f_lit (251 # 10)) "C" (eint 1) in
  uc w = Temperature /\ un w = tname TC /\ ue w = eint 1 /\ finite64 (uv w) /\ sized 900 (SFR (uv w)).
Proof.
  cbn zeta. cbn [uc un ue uv]. do 3 (split; [reflexivity|]).
  destruct (f_lit_near (251 # 10)) as (a & b & _); [vm_compute; discriminate|reflexivity|]. split; [exact a|].
  apply (sized_mono (lit_size (251 # 10) + 1)); [vm_compute; discriminate|].
  assert (hu : / 2 ^ 53 <= / 2 ^ 53 <= / 2 ^ 40) by (split; [apply Rle_refl|apply Rinv_le_contravar; [apply pow_lt; lra|apply Rle_pow; [lra|lia]]]).
  apply (sized_within (/ 2 ^ 53) hu 1 _ (Q2R (251 # 10))).
  - cbn. lia.
  - apply (near_within _ (u01 _ hu)), b.
  - apply lit_sized. reflexivity.
Qed.
