(** * B64Facts: the operations of binary64 round correctly within its range *)
From Coq Require Import String List ZArith QArith Qcanon Bool Reals Qreals Lia Lra.
From Coq Require Import Floats.SpecFloat.
From Verif Require Import Py Num NumFacts Units Rounding RoundSpec RangeSpec FloatExp FloatRound.
Local Open Scope R_scope.
Local Notation p2 := (powerRZ 2).

(** ** Digits *)
Lemma digits_spec p : (2 ^ (Zpos (digits2_pos p) - 1) <= Zpos p < 2 ^ Zpos (digits2_pos p))%Z.
Proof.
  assert (s : forall q, Z.pos (Pos.succ q) = (Z.pos q + 1)%Z) by (intro; lia).
  induction p as [p IH|p IH|]; cbn [digits2_pos]; [| |cbn; lia]; rewrite s;
    replace (Z.pos (digits2_pos p) + 1 - 1)%Z with ((Z.pos (digits2_pos p) - 1) + 1)%Z by lia; rewrite !Z.pow_add_r by lia; lia.
Qed.
Lemma digits_unique m d : (0 < d)%Z -> (2 ^ (d - 1) <= m < 2 ^ d)%Z -> Zdigits2 m = d.
Proof.
  intros hd h. destruct m as [|p|p]; [|cbn [Zdigits2]|]; try (assert (0 < 2 ^ (d - 1))%Z by (apply Z.pow_pos_nonneg; lia); lia).
  pose proof (digits_spec p) as k. set (c := Z.pos (digits2_pos p)) in *. assert (0 < c)%Z by lia.
  assert (a : (d - 1 < c)%Z) by (apply (Z.pow_lt_mono_r_iff 2); lia). assert (b : (c - 1 < d)%Z) by (apply (Z.pow_lt_mono_r_iff 2); lia). lia.
Qed.
Lemma digits_Z m : (0 < m)%Z -> (0 < Zdigits2 m /\ 2 ^ (Zdigits2 m - 1) <= m < 2 ^ Zdigits2 m)%Z.
Proof. intro h. destruct m as [|p|p]; try lia. cbn [Zdigits2]. split; [lia|apply digits_spec]. Qed.

(** ** A number and what has been shifted out *)
Definition frac (r s : bool) (d : R) : Prop :=
  match r, s with
  | false, false => d = 0
  | false, true => 0 < d < / 2
  | true, false => d = / 2
  | true, true => / 2 < d < 1
  end.
Definition rep (t : shr_record) (e : Z) (x : R) : Prop :=
  (0 <= shr_m t)%Z /\ exists d, frac (shr_r t) (shr_s t) d /\ x = (IZR (shr_m t) + d) * p2 e.
Lemma frac_range r s d : frac r s d -> 0 <= d < 1.
Proof. destruct r, s; cbn; lra. Qed.
Lemma shr_1_rep t e x : rep t e x -> rep (shr_1 t) (e + 1) x /\ (shr_m (shr_1 t) = shr_m t / 2)%Z.
Proof.
  destruct t as [m r s]. intros (h & d & hd & ->). cbn [shr_m shr_r shr_s] in *.
  assert (k : exists q b, shr_1 (Build_shr_record m r s) = Build_shr_record q b (r || s) /\ (m = 2 * q + (if b then 1 else 0) /\ 0 <= q)%Z).
  { destruct m as [|[p|p|]|p]; cbn [shr_1]; try lia; do 2 eexists; (split; [reflexivity|]); lia. }
  destruct k as (q & b & -> & hm & hq). split.
  - split; [exact hq|]. exists ((IZR (if b then 1 else 0) + d) / 2). cbn [shr_m shr_r shr_s]. split.
    + destruct b, r, s; cbn in *; lra.
    + rewrite p2_add. change (p2 1) with (2 ^ 1). rewrite pow_1. rewrite hm, plus_IZR, mult_IZR. field.
  - cbn [shr_m]. rewrite hm. destruct b; [|rewrite Z.add_0_r]; [apply (Z.div_unique _ 2 q 1); lia|rewrite Z.mul_comm, Z.div_mul; lia].
Qed.
Lemma iter_rep p : forall t e x, rep t e x -> rep (iter_pos shr_1 p t) (e + Zpos p) x /\ (shr_m (iter_pos shr_1 p t) = shr_m t / 2 ^ Zpos p)%Z.
Proof.
  induction p as [p IH|p IH|]; intros t e x h; cbn [iter_pos].
  - destruct (shr_1_rep _ _ _ h) as (h1 & m1). destruct (IH _ _ _ h1) as (h2 & m2). destruct (IH _ _ _ h2) as (h3 & m3).
    split; [replace (e + Z.pos p~1)%Z with (e + 1 + Z.pos p + Z.pos p)%Z by lia; exact h3|]. rewrite m3, m2, m1.
    rewrite !Z.div_div by (try apply Z.pow_pos_nonneg; lia). f_equal. replace (Z.pos p~1) with (1 + Z.pos p + Z.pos p)%Z by lia. rewrite !Z.pow_add_r by lia. rewrite Z.pow_1_r. ring.
  - destruct (IH _ _ _ h) as (h2 & m2). destruct (IH _ _ _ h2) as (h3 & m3).
    split; [replace (e + Z.pos p~0)%Z with (e + Z.pos p + Z.pos p)%Z by lia; exact h3|]. rewrite m3, m2.
    rewrite !Z.div_div by (try apply Z.pow_pos_nonneg; lia). f_equal. replace (Z.pos p~0) with (Z.pos p + Z.pos p)%Z by lia. rewrite !Z.pow_add_r by lia. reflexivity.
  - destruct (shr_1_rep _ _ _ h) as (h1 & m1). split; [exact h1|exact m1].
Qed.
Lemma shr_m_loc m l : shr_m (shr_record_of_loc m l) = m.
Proof. destruct l as [|[]]; reflexivity. Qed.

Lemma rep_bounds t e x : rep t e x -> IZR (shr_m t) * p2 e <= x < (IZR (shr_m t) + 1) * p2 e.
Proof. intros (_ & d & hd & ->). apply frac_range in hd. pose proof (p2_gt e). split; [apply Rmult_le_compat_r; lra|apply Rmult_lt_compat_r; lra]. Qed.

(** ** The first shift leaves 53 bits *)
Lemma norm m e l x : rep (shr_record_of_loc m l) e x -> (53 <= Zdigits2 m)%Z -> (-1021 <= Zdigits2 m + e)%Z ->
  exists t, shr_fexp 53 1024 m e l = (t, (Zdigits2 m + e - 53)%Z) /\ rep t (Zdigits2 m + e - 53) x /\ (2 ^ 52 <= shr_m t < 2 ^ 53)%Z.
Proof.
  intros h hd he. unfold shr_fexp, fexp, emin. set (d := Zdigits2 m) in *.
  replace (Z.max (d + e - 53) (3 - 1024 - 53) - e)%Z with (d - 53)%Z by lia.
  assert (hm : (0 < m)%Z) by (pose proof (proj1 h) as h0; rewrite shr_m_loc in h0; destruct m; subst d; cbn in *; lia).
  destruct (digits_Z m hm) as (_ & hm2). fold d in hm2. unfold shr.
  destruct (d - 53)%Z as [|p|p] eqn:n; [| |lia].
  - eexists. replace (d + e - 53)%Z with e by lia. split; [reflexivity|]. split; [exact h|]. rewrite shr_m_loc. replace d with 53%Z in hm2 by lia. exact hm2.
  - destruct (iter_rep p _ _ _ h) as (h1 & m1). exists (iter_pos shr_1 p (shr_record_of_loc m l)). replace (d + e - 53)%Z with (e + Z.pos p)%Z by lia. split; [reflexivity|]. split; [exact h1|].
    rewrite m1, shr_m_loc. assert (0 < 2 ^ Z.pos p)%Z by (apply Z.pow_pos_nonneg; lia). split.
    + apply Z.div_le_lower_bound; [assumption|]. rewrite <- Z.pow_add_r by lia. replace (Z.pos p + 52)%Z with (d - 1)%Z by lia. apply hm2.
    + apply Z.div_lt_upper_bound; [assumption|]. rewrite <- Z.pow_add_r by lia. replace (Z.pos p + 53)%Z with d by lia. apply hm2.
Qed.
Lemma nearest_even t e x : rep t e x -> exists m, round_nearest_even (shr_m t) (loc_of_shr_record t) = m /\ (shr_m t <= m <= shr_m t + 1)%Z /\
  Rabs (IZR m * p2 e - x) <= / 2 * p2 e /\ ((exists k, x = IZR k * p2 e) -> x = IZR m * p2 e).
Proof.
  destruct t as [m r s]. intros (h & d & hd & ->). cbn [shr_m shr_r shr_s] in *. pose proof (p2_gt e) as p.
  assert (a : forall n, Rabs (IZR n - (IZR m + d)) <= / 2 -> Rabs (IZR n * p2 e - (IZR m + d) * p2 e) <= / 2 * p2 e).
  { intros n hn. replace (IZR n * p2 e - (IZR m + d) * p2 e) with ((IZR n - (IZR m + d)) * p2 e) by ring. rewrite Rabs_mult, (Rabs_pos_eq (p2 e)) by lra.
    apply Rmult_le_compat_r; lra. }
  assert (x : (exists k, (IZR m + d) * p2 e = IZR k * p2 e) -> d = 0).
  { intros (k & hk). apply Rmult_eq_reg_r in hk; [|lra]. apply frac_range in hd.
    assert (k = m) by (assert (m - 1 < k)%Z by (apply lt_IZR; rewrite minus_IZR; lra); assert (k < m + 1)%Z by (apply lt_IZR; rewrite plus_IZR; lra); lia).
    subst. lra. }
  destruct r, s; cbn [loc_of_shr_record round_nearest_even frac] in *.
  - exists (m + 1)%Z. split; [reflexivity|]. split; [lia|]. split; [apply a; rewrite plus_IZR; apply Rabs_le; lra|]. intro k. apply x in k. lra.
  - exists (if Z.even m then m else (m + 1)%Z). split; [reflexivity|]. split; [destruct (Z.even m); lia|].
    split; [apply a; destruct (Z.even m); rewrite ?plus_IZR; apply Rabs_le; lra|]. intro k. apply x in k. lra.
  - exists m. split; [reflexivity|]. split; [lia|]. split; [apply a; apply Rabs_le; lra|]. intro k. apply x in k. lra.
  - exists m. split; [reflexivity|]. split; [lia|]. split; [apply a; apply Rabs_le; lra|]. intros _. rewrite hd. ring.
Qed.
(** ** Rounding *)
Definition sgn (s : bool) : R := if s then -1 else 1.
Lemma sgn_abs s : Rabs (sgn s) = 1.
Proof. destruct s; cbn [sgn]; [rewrite Rabs_left|rewrite Rabs_right]; lra. Qed.
Lemma round_ok sx m e l x : p2 (-1020) <= x <= p2 1020 -> rep (shr_record_of_loc m l) e x -> (53 <= Zdigits2 m)%Z ->
  exists r, binary_round_aux 53 1024 sx m e l = r /\ finite64 r /\ Rabs (SFR r - sgn sx * x) <= / 2 ^ 53 * x /\
    ((exists k, x = IZR k * p2 (Zdigits2 m + e - 53)) -> SFR r = sgn sx * x).
Proof.
  intros hx h hd. pose proof (rep_bounds _ _ _ h) as hb. rewrite shr_m_loc in hb.
  assert (hm : (0 < m)%Z) by (pose proof (proj1 h) as h0; rewrite shr_m_loc in h0; destruct m; cbn in *; lia).
  destruct (digits_Z m hm) as (_ & hm2).
  assert (lo : (-1021 < Zdigits2 m + e)%Z).
  { apply p2_lt_inv. apply Rlt_trans with (p2 (-1020)); [change (-1020)%Z with (-1021 + 1)%Z; rewrite p2_add; change (p2 1) with (2 ^ 1); pose proof (p2_gt (-1021)); lra|].
    apply Rle_lt_trans with (1 := proj1 hx). apply Rlt_le_trans with (1 := proj2 hb). rewrite p2_add. apply Rmult_le_compat_r; [left; apply p2_gt|].
    rewrite p2_nonneg by lia. rewrite <- plus_IZR. apply IZR_le. lia. }
  destruct (norm m e l x h hd ltac:(lia)) as (t & et & ht & hm1). set (e1 := (Zdigits2 m + e - 53)%Z) in *.
  assert (hi : (e1 <= 968)%Z).
  { pose proof (rep_bounds _ _ _ ht) as hb1. assert (q : p2 (52 + e1) <= p2 1020).
    { apply Rle_trans with (2 := proj2 hx). apply Rle_trans with (2 := proj1 hb1). rewrite p2_add. apply Rmult_le_compat_r; [left; apply p2_gt|].
      rewrite p2_nonneg by lia. apply IZR_le. lia. }
    destruct (Z_le_gt_dec e1 968) as [|g]; [assumption|exfalso]. assert (p2 1021 <= p2 (52 + e1)) by (apply p2_le; lia).
    change 1021%Z with (1020 + 1)%Z in H. rewrite p2_add in H. change (p2 1) with (2 ^ 1) in H. pose proof (p2_gt 1020). lra. }
  destruct (nearest_even t e1 x ht) as (n & en & hn & near & ex).
  eexists. split; [reflexivity|]. unfold binary_round_aux. rewrite et, en.
  assert (fin : exists mf ef, (let '(mrs'', e'') := shr_fexp 53 1024 n e1 loc_Exact in
      match shr_m mrs'' with
      | Z0 => S754_zero sx
      | Z.pos m => if Zle_bool e'' (1024 - 53) then S754_finite sx m e'' else S754_infinity sx
      | Z.neg _ => S754_nan
      end) = S754_finite sx mf ef /\ bounded 53 1024 mf ef = true /\ IZR (Zpos mf) * p2 ef = IZR n * p2 e1).
  { assert (bd : forall mf ef, Zdigits2 (Zpos mf) = 53%Z -> (-1074 <= ef <= 971)%Z -> bounded 53 1024 mf ef = true).
    { intros mf ef q1 q2. unfold bounded, canonical_mantissa. cbn [Zdigits2] in q1. rewrite q1. unfold fexp, emin. apply andb_true_intro. split.
      - apply Zeq_is_eq_bool. lia.
      - apply Zle_is_le_bool. lia. }
    unfold shr_fexp. destruct (Z.eq_dec n (2 ^ 53)) as [->|ne].
    - replace (Zdigits2 (2 ^ 53)) with 54%Z by reflexivity. unfold fexp, emin. replace (Z.max (54 + e1 - 53) (3 - 1024 - 53) - e1)%Z with 1%Z by lia.
      cbn [shr iter_pos]. change (shr_m (shr_1 (shr_record_of_loc (2 ^ 53) loc_Exact))) with (2 ^ 52)%Z. cbn -[p2 Zle_bool bounded].
      rewrite (proj1 (Zle_is_le_bool (e1 + 1) 971)) by lia. do 2 eexists. split; [reflexivity|]. split; [apply bd; [reflexivity|lia]|].
      rewrite p2_add. change (p2 1) with (2 ^ 1). rewrite pow_1.
      change (IZR (Z.pos 9007199254740992)) with (IZR (2 * 4503599627370496)). rewrite mult_IZR. ring.
    - assert (q : Zdigits2 n = 53%Z) by (apply digits_unique; cbn; lia). rewrite q. unfold fexp, emin.
      replace (Z.max (53 + e1 - 53) (3 - 1024 - 53) - e1)%Z with 0%Z by lia. cbn [shr shr_m shr_record_of_loc].
      destruct n as [|p|p]; [cbn in q; lia| |lia]. rewrite (proj1 (Zle_is_le_bool e1 (1024 - 53))) by lia.
      do 2 eexists. split; [reflexivity|]. split; [apply bd; [exact q|lia]|reflexivity]. }
  destruct fin as (mf & ef & -> & hf & vf). split; [exact hf|]. cbn [SFR]. rewrite vf. fold (sgn sx). split.
  - rewrite <- Rmult_minus_distr_l, Rabs_mult. rewrite sgn_abs, Rmult_1_l. apply Rle_trans with (1 := near). pose proof (rep_bounds _ _ _ ht) as hb1.
    apply Rle_trans with (/ 2 ^ 53 * (IZR (2 ^ 52) * p2 e1)).
    + rewrite <- Rmult_assoc. apply Rmult_le_compat_r; [left; apply p2_gt|]. replace (IZR (2 ^ 52)) with (2 ^ 52) by (rewrite pow_IZR; reflexivity).
      right. change 53%nat with (S 52). cbn [pow]. field.
    + apply Rmult_le_compat_l; [left; apply Rinv_0_lt_compat, pow_lt; lra|]. apply Rle_trans with (2 := proj1 hb1).
      apply Rmult_le_compat_r; [left; apply p2_gt|]. apply IZR_le. lia.
  - intro k. rewrite (ex k). reflexivity.
Qed.

(** ** Canonical numbers *)
Lemma SFR_abs s m e : Rabs (SFR (S754_finite s m e)) = IZR (Zpos m) * p2 e.
Proof.
  cbn [SFR]. fold (sgn s). rewrite Rabs_mult, sgn_abs, Rmult_1_l. apply Rabs_pos_eq. apply Rmult_le_pos; [apply IZR_le; lia|left; apply p2_gt].
Qed.
Lemma SFR_zero x : finite64 x -> (SFR x = 0 <-> exists s, x = S754_zero s).
Proof.
  intro h. destruct x as [s|s| |s m e]; try contradiction; split; try (intros (s' & e'); congruence); eauto.
  - intro h0. exfalso. pose proof (SFR_abs s m e) as k. rewrite h0, Rabs_R0 in k. pose proof (p2_gt e).
    assert (0 < IZR (Z.pos m)) by (apply IZR_lt; lia). nra.
Qed.
Lemma canonical_digits s m e : finite64 (S754_finite s m e) -> p2 (-1020) <= Rabs (SFR (S754_finite s m e)) -> Zdigits2 (Zpos m) = 53%Z.
Proof.
  intros h hx. rewrite SFR_abs in hx. cbn [finite64] in h. unfold bounded, canonical_mantissa in h. apply andb_prop in h. destruct h as (h & _).
  apply Zeq_bool_eq in h. unfold fexp, emin in h. pose proof (digits_spec m) as d. cbn [Zdigits2]. set (c := Z.pos (digits2_pos m)) in *.
  assert (lo : (-1021 < c + e)%Z); [|lia].
  apply p2_lt_inv. apply Rlt_trans with (p2 (-1020)); [change (-1020)%Z with (-1021 + 1)%Z; rewrite p2_add; change (p2 1) with (2 ^ 1); pose proof (p2_gt (-1021)); lra|].
  apply Rle_lt_trans with (1 := hx). rewrite p2_add. apply Rmult_lt_compat_r; [apply p2_gt|]. rewrite p2_nonneg by lia. apply IZR_lt. lia.
Qed.
Lemma rep_exact m e : (0 <= m)%Z -> rep (shr_record_of_loc m loc_Exact) e (IZR m * p2 e).
Proof. intro h. split; [exact h|]. exists 0. split; [reflexivity|]. cbn. ring. Qed.

(** ** Products *)
Definition mid (x : R) : Prop := p2 (-1020) <= Rabs x <= p2 1020.
Lemma digits_mul m n : (53 <= Zdigits2 (Zpos m))%Z -> (53 <= Zdigits2 (Zpos (m * n)))%Z.
Proof.
  intro h. destruct (digits_Z (Zpos m)) as (_ & a & _); [lia|]. destruct (digits_Z (Zpos (m * n))) as (p & _ & b); [lia|].
  set (d := Zdigits2 (Z.pos m)) in *. set (f := Zdigits2 (Z.pos (m * n))) in *.
  assert (c : (2 ^ (d - 1) < 2 ^ f)%Z) by nia. apply Z.pow_lt_mono_r_iff in c; lia.
Qed.
Lemma sgn_xor s t : sgn (xorb s t) = sgn s * sgn t.
Proof. destruct s, t; cbn; lra. Qed.
Lemma sgn_scale s v x : 0 < x -> v = sgn s * x -> Rabs v = x.
Proof. intros h ->. rewrite Rabs_mult, sgn_abs, Rmult_1_l. apply Rabs_pos_eq. lra. Qed.
Lemma mul_near x y : finite64 x -> finite64 y -> (SFR x <> 0 -> p2 (-1020) <= Rabs (SFR x)) ->
  (SFR x * SFR y = 0 \/ mid (SFR x * SFR y)) ->
  finite64 (SFmul 53 1024 x y) /\ near1 (/ 2 ^ 53) (SFR x * SFR y) (SFR (SFmul 53 1024 x y)).
Proof.
  intros hx hy hn hm. assert (z : forall v, v = 0 -> near1 (/ 2 ^ 53) v 0).
  { intros v ->. unfold near1. rewrite Rminus_0_r, Rabs_R0. lra. }
  destruct x as [s|s| |s m e], y as [t|t| |t n f]; try contradiction; cbn [SFmul];
    try (split; [exact I|apply z; cbn [SFR]; ring]).
  assert (p : 0 < IZR (Zpos m) * p2 e * (IZR (Zpos n) * p2 f)).
  { pose proof (p2_gt e). pose proof (p2_gt f). assert (0 < IZR (Z.pos m)) by (apply IZR_lt; lia). assert (0 < IZR (Z.pos n)) by (apply IZR_lt; lia).
    repeat apply Rmult_lt_0_compat; assumption. }
  set (v := IZR (Zpos m) * p2 e * (IZR (Zpos n) * p2 f)) in *.
  assert (ev : SFR (S754_finite s m e) * SFR (S754_finite t n f) = sgn (xorb s t) * v) by (rewrite sgn_xor; cbn [SFR]; fold (sgn s) (sgn t); unfold v; ring).
  pose proof (sgn_scale _ _ _ p ev) as av. rewrite ev in *.
  assert (nz : SFR (S754_finite s m e) <> 0) by (intro q; apply (SFR_zero _ hx) in q; destruct q; discriminate).
  destruct hm as [hm|hm]; [rewrite hm, Rabs_R0 in av; lra|]. unfold mid in hm. rewrite av in hm.
  destruct (round_ok (xorb s t) (Z.pos (m * n)) (e + f) loc_Exact v hm) as (r & -> & fr & nr & _).
  - replace v with (IZR (Z.pos (m * n)) * p2 (e + f)); [apply rep_exact; lia|]. rewrite p2_add, Pos2Z.inj_mul, mult_IZR. unfold v. ring.
  - apply digits_mul. rewrite (canonical_digits s m e hx (hn nz)). lia.
  - split; [exact fr|]. unfold near1. rewrite av. exact nr.
Qed.

(** ** Quotients *)
Lemma new_location_rep q r n e : (0 < n)%Z -> (0 <= r < n)%Z -> (0 <= q)%Z ->
  rep (shr_record_of_loc q (new_location n r)) e ((IZR q + IZR r / IZR n) * p2 e).
Proof.
  intros hn hr hq. split; [rewrite shr_m_loc; exact hq|]. exists (IZR r / IZR n). rewrite shr_m_loc. split; [|reflexivity].
  assert (pn : 0 < IZR n) by (apply IZR_lt; exact hn).
  assert (dv : forall a, a < IZR r / IZR n <-> a * IZR n < IZR r).
  { intro a. split; intro h.
    - apply (Rmult_lt_compat_r (IZR n)) in h; [|exact pn]. unfold Rdiv in h. rewrite Rmult_assoc, Rinv_l, Rmult_1_r in h by lra. exact h.
    - apply (Rmult_lt_reg_r (IZR n)); [exact pn|]. unfold Rdiv. rewrite Rmult_assoc, Rinv_l, Rmult_1_r by lra. exact h. }
  assert (dv' : forall a, IZR r / IZR n < a <-> IZR r < a * IZR n).
  { intro a. split; intro h.
    - apply (Rmult_lt_compat_r (IZR n)) in h; [|exact pn]. unfold Rdiv in h. rewrite Rmult_assoc, Rinv_l, Rmult_1_r in h by lra. exact h.
    - apply (Rmult_lt_reg_r (IZR n)); [exact pn|]. unfold Rdiv. rewrite Rmult_assoc, Rinv_l, Rmult_1_r by lra. exact h. }
  assert (z : r <> 0%Z -> 0 < IZR r / IZR n) by (intro; apply Rdiv_lt_0_compat; [apply IZR_lt; lia|exact pn]).
  assert (lt : r <> 0%Z -> (2 * r < n)%Z -> 0 < IZR r / IZR n < / 2).
  { intros r0 h. split; [apply z, r0|]. apply dv'. apply IZR_lt in h. rewrite mult_IZR in h. lra. }
  assert (gt : (n < 2 * r)%Z -> / 2 < IZR r / IZR n < 1).
  { intros h. split; [apply dv; apply IZR_lt in h; rewrite mult_IZR in h; lra|]. apply dv'. rewrite Rmult_1_l. apply IZR_lt. lia. }
  unfold new_location, new_location_even, new_location_odd. destruct (Z.even n) eqn:ev.
  - destruct (Zeq_bool r 0) eqn:r0; [apply Zeq_bool_eq in r0; subst; cbn; unfold Rdiv; ring|apply Zeq_bool_neq in r0].
    destruct (Z.compare_spec (2 * r) n) as [c|c|c]; cbn [shr_record_of_loc shr_r shr_s frac]; auto.
    rewrite <- c, mult_IZR. field. apply not_0_IZR. exact r0.
  - destruct (Zeq_bool r 0) eqn:r0; [apply Zeq_bool_eq in r0; subst; cbn; unfold Rdiv; ring|apply Zeq_bool_neq in r0].
    assert (od : (2 * r <> n)%Z) by (intro q0; rewrite <- q0, Z.even_mul in ev; discriminate).
    destruct (Z.compare_spec (2 * r + 1) n) as [c|c|c]; cbn [shr_record_of_loc shr_r shr_s frac]; [apply lt; [exact r0|lia]|apply lt; [exact r0|lia]|apply gt; lia].
Qed.
Lemma div_core m e n f : (0 < m)%Z -> (0 < n)%Z -> p2 (-1020) <= IZR m * p2 e / (IZR n * p2 f) ->
  exists q e' l, SFdiv_core_binary 53 1024 m e n f = (q, e', l) /\ rep (shr_record_of_loc q l) e' (IZR m * p2 e / (IZR n * p2 f)) /\ (53 <= Zdigits2 q)%Z.
Proof.
  intros hm hn hx. unfold SFdiv_core_binary. destruct (digits_Z m hm) as (_ & dm). destruct (digits_Z n hn) as (_ & dn).
  set (c := Zdigits2 m) in *. set (d := Zdigits2 n) in *. pose proof (p2_gt e) as pe. pose proof (p2_gt f) as pf.
  assert (pm : 0 < IZR m) by (apply IZR_lt, hm). assert (pn : 0 < IZR n) by (apply IZR_lt, hn).
  set (x := IZR m * p2 e / (IZR n * p2 f)) in *.
  assert (c0 : (0 < c)%Z) by (apply digits_Z, hm). assert (d0 : (0 < d)%Z) by (apply digits_Z, hn).
  assert (up : x < p2 (c + e - d - f + 1)).
  { unfold x. apply (Rmult_lt_reg_r (IZR n * p2 f)); [apply Rmult_lt_0_compat; assumption|]. unfold Rdiv. rewrite Rmult_assoc, Rinv_l, Rmult_1_r by (apply Rgt_not_eq, Rmult_lt_0_compat; assumption).
    apply Rlt_le_trans with (IZR (2 ^ c) * p2 e); [apply Rmult_lt_compat_r; [assumption|apply IZR_lt; lia]|].
    replace (c + e - d - f + 1)%Z with ((c + e) + - (d - 1) + - f)%Z by lia. rewrite !p2_add, !p2_opp. rewrite <- (p2_nonneg c) by lia.
    assert (q : p2 (d - 1) <= IZR n) by (rewrite p2_nonneg by lia; apply IZR_le; lia). pose proof (p2_gt (d - 1)) as pd. pose proof (p2_gt c) as pc.
    replace (p2 c * p2 e * / p2 (d - 1) * / p2 f * (IZR n * p2 f)) with (p2 c * p2 e * (IZR n * / p2 (d - 1))) by (field; split; lra).
    rewrite <- (Rmult_1_r (p2 c * p2 e)) at 1. apply Rmult_le_compat_l; [apply Rmult_le_pos; lra|].
    apply (Rmult_le_reg_r (p2 (d - 1))); [exact pd|]. rewrite Rmult_assoc, Rinv_l by lra. lra. }
  assert (lo : p2 (c + e - d - f - 1) < x).
  { unfold x. apply (Rmult_lt_reg_r (IZR n * p2 f)); [apply Rmult_lt_0_compat; assumption|]. unfold Rdiv. rewrite Rmult_assoc, Rinv_l, Rmult_1_r by (apply Rgt_not_eq, Rmult_lt_0_compat; assumption).
    apply Rlt_le_trans with (IZR (2 ^ (c - 1)) * p2 e); [|apply Rmult_le_compat_r; [lra|apply IZR_le; lia]].
    replace (c + e - d - f - 1)%Z with ((c - 1) + e + - d + - f)%Z by lia. rewrite !p2_add, !p2_opp. rewrite <- (p2_nonneg (c - 1)) by lia.
    assert (q : IZR n < p2 d) by (rewrite p2_nonneg by lia; apply IZR_lt; lia). pose proof (p2_gt d) as pd. pose proof (p2_gt (c - 1)) as pc.
    replace (p2 (c - 1) * p2 e * / p2 d * / p2 f * (IZR n * p2 f)) with (p2 (c - 1) * p2 e * (IZR n * / p2 d)) by (field; split; lra).
    rewrite <- (Rmult_1_r (p2 (c - 1) * p2 e)) at 2. apply Rmult_lt_compat_l; [apply Rmult_lt_0_compat; lra|].
    apply (Rmult_lt_reg_r (p2 d)); [exact pd|]. rewrite Rmult_assoc, Rinv_l by lra. lra. }
  assert (nrm : (-1021 < c + e - d - f)%Z).
  { assert (q : p2 (-1020) < p2 (c + e - d - f + 1)) by lra. apply p2_lt_inv in q. lia. }
  unfold fexp, emin. replace (Z.max (c + e - (d + f) - 53) (3 - 1024 - 53)) with (c + e - d - f - 53)%Z by lia.
  set (e' := Z.min (c + e - d - f - 53) (e - f)). set (s := (e - f - e')%Z). assert (s0 : (0 <= s)%Z) by lia.
  assert (em : match s with Z0 => m | Z.pos _ => Z.shiftl m s | Z.neg _ => 0%Z end = (m * 2 ^ s)%Z).
  { rewrite <- Z.shiftl_mul_pow2 by exact s0. destruct s; [rewrite Z.shiftl_0_r; reflexivity|reflexivity|lia]. }
  rewrite em. pose proof (Z_div_mod (m * 2 ^ s) n ltac:(lia)) as dm2. destruct (Z.div_eucl (m * 2 ^ s) n) as (q, r). destruct dm2 as (eq1 & hr).
  exists q, e', (new_location n r). split; [reflexivity|].
  assert (p2s : (0 < 2 ^ s)%Z) by (apply Z.pow_pos_nonneg; lia).
  assert (q0 : (0 <= q)%Z) by nia.
  assert (ex : x = (IZR q + IZR r / IZR n) * p2 e').
  { unfold x. assert (k : IZR m * p2 s = IZR n * IZR q + IZR r) by (rewrite p2_nonneg by exact s0; rewrite <- !mult_IZR, <- plus_IZR; f_equal; exact eq1).
    replace (IZR q + IZR r / IZR n) with ((IZR n * IZR q + IZR r) / IZR n) by (field; lra). rewrite <- k. unfold s.
    replace (e - f - e')%Z with (e + - f + - e')%Z by lia. rewrite !p2_add, !p2_opp. pose proof (p2_gt e'). field. repeat split; lra. }
  rewrite ex. assert (rp : rep (shr_record_of_loc q (new_location n r)) e' ((IZR q + IZR r / IZR n) * p2 e')) by (apply new_location_rep; lia).
  split; [exact rp|]. pose proof (rep_bounds _ _ _ rp) as rb. rewrite shr_m_loc, <- ex in rb.
  assert (big : (2 ^ 52 <= q)%Z).
  { assert (g : p2 (52 + e') < (IZR q + 1) * p2 e').
    { apply Rlt_trans with (2 := proj2 rb). apply Rle_lt_trans with (2 := lo). apply p2_le. lia. }
    rewrite p2_add in g. apply Rmult_lt_reg_r in g; [|apply p2_gt]. rewrite p2_nonneg in g by lia. rewrite <- plus_IZR in g. apply lt_IZR in g. lia. }
  assert (qp : (0 < q)%Z) by lia. destruct (digits_Z q qp) as (d1 & dq).
  assert (k : (2 ^ 52 < 2 ^ Zdigits2 q)%Z) by lia. apply Z.pow_lt_mono_r_iff in k; lia.
Qed.
Lemma div_near x y : finite64 x -> finite64 y -> SFR y <> 0 ->
  (SFR x / SFR y = 0 \/ mid (SFR x / SFR y)) ->
  finite64 (SFdiv 53 1024 x y) /\ near1 (/ 2 ^ 53) (SFR x / SFR y) (SFR (SFdiv 53 1024 x y)).
Proof.
  intros hx hy hn hm. assert (z : forall v, v = 0 -> near1 (/ 2 ^ 53) v 0).
  { intros v ->. unfold near1. rewrite Rminus_0_r, Rabs_R0. lra. }
  destruct x as [s|s| |s m e], y as [t|t| |t n f]; try contradiction; try (exfalso; apply hn; reflexivity); cbn [SFdiv].
  - split; [exact I|]. apply z. cbn [SFR]. unfold Rdiv. ring.
  - pose proof (p2_gt e) as pe. pose proof (p2_gt f) as pf. assert (pm : 0 < IZR (Z.pos m)) by (apply IZR_lt; lia). assert (pn : 0 < IZR (Z.pos n)) by (apply IZR_lt; lia).
    set (v := IZR (Zpos m) * p2 e / (IZR (Zpos n) * p2 f)) in *.
    assert (p : 0 < v) by (apply Rdiv_lt_0_compat; apply Rmult_lt_0_compat; assumption).
    assert (ev : SFR (S754_finite s m e) / SFR (S754_finite t n f) = sgn (xorb s t) * v).
    { rewrite sgn_xor. cbn [SFR]. fold (sgn s) (sgn t). unfold v. assert (tt : sgn t * sgn t = 1) by (destruct t; cbn; lra). assert (sgn t <> 0) by (destruct t; cbn; lra).
      apply (Rmult_eq_reg_r (sgn t)); [|assumption]. replace (sgn s * sgn t * (IZR (Z.pos m) * p2 e / (IZR (Z.pos n) * p2 f)) * sgn t) with (sgn s * (sgn t * sgn t) * (IZR (Z.pos m) * p2 e / (IZR (Z.pos n) * p2 f))) by ring. rewrite tt.
      field. repeat split; try lra; assumption. }
    pose proof (sgn_scale _ _ _ p ev) as av. rewrite ev in *.
    destruct hm as [hm|hm]; [rewrite hm, Rabs_R0 in av; lra|]. unfold mid in hm. rewrite av in hm.
    destruct (div_core (Z.pos m) e (Z.pos n) f eq_refl eq_refl (proj1 hm)) as (q & e' & l & -> & rp & dq).
    destruct (round_ok (xorb s t) q e' l v hm rp dq) as (r & -> & fr & nr & _). split; [exact fr|]. unfold near1. rewrite av. exact nr.
Qed.

(** ** Whole multiples of powers of two *)
Lemma shift_pos_val d m : Zpos (shift_pos d m) = (Zpos m * 2 ^ Zpos d)%Z.
Proof. rewrite shift_pos_correct. change (Z.pow_pos 2 d) with (2 ^ Zpos d)%Z. ring. Qed.
Lemma round_int s m e : p2 (-1020) <= IZR (Zpos m) * p2 e <= p2 1020 ->
  finite64 (binary_round 53 1024 s m e) /\ Rabs (SFR (binary_round 53 1024 s m e) - sgn s * (IZR (Zpos m) * p2 e)) <= / 2 ^ 53 * (IZR (Zpos m) * p2 e) /\
  ((Zpos m <= 2 ^ 53)%Z -> SFR (binary_round 53 1024 s m e) = sgn s * (IZR (Zpos m) * p2 e)).
Proof.
  intro hx. unfold binary_round, shl_align. pose proof (digits_spec m) as d. set (c := Zpos (digits2_pos m)) in *.
  assert (lo : (-1021 < c + e)%Z).
  { apply p2_lt_inv. apply Rlt_trans with (p2 (-1020)); [change (-1020)%Z with (-1021 + 1)%Z; rewrite p2_add; change (p2 1) with (2 ^ 1); pose proof (p2_gt (-1021)); lra|].
    apply Rle_lt_trans with (1 := proj1 hx). rewrite p2_add. apply Rmult_lt_compat_r; [apply p2_gt|]. rewrite p2_nonneg by lia. apply IZR_lt. lia. }
  unfold fexp, emin. replace (Z.max (c + e - 53) (3 - 1024 - 53)) with (c + e - 53)%Z by lia.
  assert (k : exists m' e', match (c + e - 53 - e)%Z with Z.neg d => (shift_pos d m, (c + e - 53)%Z) | _ => (m, e) end = (m', e') /\
    IZR (Zpos m') * p2 e' = IZR (Zpos m) * p2 e /\ (53 <= Zdigits2 (Zpos m'))%Z /\ ((Zpos m <= 2 ^ 53)%Z -> exists k, IZR (Zpos m) * p2 e = IZR k * p2 (Zdigits2 (Zpos m') + e' - 53))).
  { destruct (Z_lt_ge_dec (c + e - 53 - e) 0) as [l|g].
    - destruct (c + e - 53 - e)%Z as [|q|q] eqn:eq; try lia. exists (shift_pos q m), (c + e - 53)%Z. split; [reflexivity|].
      assert (dg : Zdigits2 (Zpos (shift_pos q m)) = 53%Z).
      { apply digits_unique; [lia|]. rewrite shift_pos_val. replace 53%Z with (c + Zpos q)%Z by lia. replace (c + Zpos q - 1)%Z with ((c - 1) + Zpos q)%Z by lia.
        rewrite !Z.pow_add_r by lia. assert (0 < 2 ^ Zpos q)%Z by (apply Z.pow_pos_nonneg; lia). nia. }
      assert (v : IZR (Z.pos (shift_pos q m)) * p2 (c + e - 53) = IZR (Z.pos m) * p2 e).
      { rewrite shift_pos_val, mult_IZR, <- p2_nonneg by lia. replace e with (Zpos q + (c + e - 53))%Z at 2 by lia. rewrite p2_add. ring. }
      split; [exact v|]. rewrite dg. split; [lia|]. intros _. exists (Zpos (shift_pos q m)). rewrite <- v. do 2 f_equal. lia.
    - assert (E : match (c + e - 53 - e)%Z with Z.neg d => (shift_pos d m, (c + e - 53)%Z) | _ => (m, e) end = (m, e)) by (destruct (c + e - 53 - e)%Z; [reflexivity|reflexivity|lia]).
      exists m, e. split; [exact E|]. split; [reflexivity|]. cbn [Zdigits2]. fold c. split; [lia|]. intro h53.
      assert (c <= 54)%Z. { destruct (Z_le_gt_dec c 54) as [|g']; [assumption|exfalso]. assert (2 ^ 54 <= 2 ^ (c - 1))%Z by (apply Z.pow_le_mono_r; lia). lia. }
      assert (ce : c = 53%Z \/ c = 54%Z) by lia. destruct ce as [ce|ce]; rewrite ce in *.
      + exists (Zpos m). do 2 f_equal. lia.
      + exists (2 ^ 52)%Z. change (54 - 1)%Z with 53%Z in d. assert (E54 : Zpos m = (2 ^ 53)%Z) by (apply Z.le_antisymm; [exact h53|exact (proj1 d)]). rewrite E54. replace (54 + e - 53)%Z with (1 + e)%Z by lia. rewrite p2_add. change (p2 1) with (2 ^ 1).
        replace (2 ^ 53)%Z with (2 ^ 52 * 2)%Z by reflexivity. rewrite mult_IZR. ring. }
  destruct k as (m' & e' & -> & v & dg & ex). rewrite <- v in hx |- *.
  destruct (round_ok s (Zpos m') e' loc_Exact (IZR (Zpos m') * p2 e') hx (rep_exact (Zpos m') e' (Pos2Z.is_nonneg m')) dg) as (r & -> & fr & nr & er).
  split; [exact fr|]. split; [exact nr|]. intro h. apply er. rewrite v. apply ex, h.
Qed.
Lemma normalize z e b : (z = 0%Z \/ mid (IZR z * p2 e)) ->
  finite64 (binary_normalize 53 1024 z e b) /\ near1 (/ 2 ^ 53) (IZR z * p2 e) (SFR (binary_normalize 53 1024 z e b)) /\
  ((Z.abs z <= 2 ^ 53)%Z -> SFR (binary_normalize 53 1024 z e b) = IZR z * p2 e).
Proof.
  intro h. destruct z as [|m|m].
  - cbn. split; [exact I|]. rewrite Rmult_0_l. split; [|reflexivity]. unfold near1. rewrite Rminus_0_r, Rabs_R0. lra.
  - destruct h as [h|h]; [discriminate|]. unfold mid in h. assert (p : 0 < IZR (Zpos m) * p2 e) by (apply Rmult_lt_0_compat; [apply IZR_lt; lia|apply p2_gt]).
    rewrite Rabs_pos_eq in h by lra. destruct (round_int false m e h) as (a & n & x). cbn [binary_normalize]. split; [exact a|].
    cbn [sgn] in *. rewrite Rmult_1_l in *. split; [unfold near1; rewrite (Rabs_pos_eq (IZR (Z.pos m) * p2 e)) by lra; exact n|]. exact x.
  - destruct h as [h|h]; [discriminate|]. unfold mid in h. assert (p : 0 < IZR (Zpos m) * p2 e) by (apply Rmult_lt_0_compat; [apply IZR_lt; lia|apply p2_gt]).
    assert (ne : IZR (Z.neg m) * p2 e = sgn true * (IZR (Zpos m) * p2 e)) by (change (Z.neg m) with (- Z.pos m)%Z; rewrite opp_IZR; cbn [sgn]; ring).
    rewrite ne in *. rewrite Rabs_mult, sgn_abs, Rmult_1_l, Rabs_pos_eq in h by lra.
    destruct (round_int true m e h) as (a & n & x). cbn [binary_normalize]. split; [exact a|].
    split; [unfold near1; rewrite Rabs_mult, sgn_abs, Rmult_1_l, (Rabs_pos_eq (IZR (Z.pos m) * p2 e)) by lra; exact n|exact x].
Qed.
Lemma f_int_near z : (Z.abs z <= 2 ^ 1019)%Z -> finite64 (f_int z) /\ near1 (/ 2 ^ 53) (IZR z) (SFR (f_int z)) /\ ((Z.abs z <= 2 ^ 53)%Z -> SFR (f_int z) = IZR z).
Proof.
  intro h. unfold f_int. destruct (normalize z 0 false) as (a & b & c).
  - destruct (Z.eq_dec z 0) as [|n]; [left; assumption|right]. unfold mid. change (p2 0) with 1. rewrite Rmult_1_r, <- abs_IZR. split.
    + apply Rle_trans with 1; [change 1 with (p2 0); apply p2_le; lia|]. apply IZR_le. lia.
    + rewrite p2_nonneg by lia. apply IZR_le. apply Z.le_trans with (1 := h). apply Z.pow_le_mono_r; lia.
  - change (p2 0) with 1 in *. rewrite Rmult_1_r in *. auto.
Qed.

(** ** Sums *)
Lemma align m e f : (f <= e)%Z -> IZR (Zpos (fst (shl_align m e f))) * p2 f = IZR (Zpos m) * p2 e.
Proof.
  intro h. unfold shl_align. destruct (f - e)%Z as [|q|q] eqn:q0; cbn [fst]; try lia.
  - replace f with e by lia. reflexivity.
  - rewrite shift_pos_val, mult_IZR, <- p2_nonneg by lia. replace e with (Zpos q + f)%Z by lia. rewrite p2_add. ring.
Qed.
Lemma near_self v : near1 (/ 2 ^ 53) v v.
Proof.
  unfold near1. replace (v - v) with 0 by ring. rewrite Rabs_R0. apply Rmult_le_pos; [left; apply Rinv_0_lt_compat, pow_lt; lra|apply Rabs_pos].
Qed.
Lemma cond_opp s m f : IZR (cond_Zopp s (Zpos m)) * p2 f = sgn s * (IZR (Zpos m) * p2 f).
Proof. destruct s; cbn [cond_Zopp sgn]; [rewrite opp_IZR|]; ring. Qed.
Lemma add_near x y : finite64 x -> finite64 y -> (SFR x + SFR y = 0 \/ mid (SFR x + SFR y)) ->
  finite64 (SFadd 53 1024 x y) /\ near1 (/ 2 ^ 53) (SFR x + SFR y) (SFR (SFadd 53 1024 x y)).
Proof.
  intros hx hy hm. destruct x as [s|s| |s m e], y as [t|t| |t n f]; try contradiction; cbn [SFadd].
  - replace (SFR (S754_zero s) + SFR (S754_zero t)) with 0 by (cbn; ring). destruct (Bool.eqb s t); (split; [exact I|apply near_self]).
  - replace (SFR (S754_zero s) + SFR (S754_finite t n f)) with (SFR (S754_finite t n f)) by (cbn; ring). split; [exact hy|apply near_self].
  - replace (SFR (S754_finite s m e) + SFR (S754_zero t)) with (SFR (S754_finite s m e)) by (cbn; ring). split; [exact hx|apply near_self].
  - set (z := (cond_Zopp s _ + cond_Zopp t _)%Z). set (g := Z.min e f).
    assert (v : IZR z * p2 g = SFR (S754_finite s m e) + SFR (S754_finite t n f)).
    { unfold z. rewrite plus_IZR, Rmult_plus_distr_r, !cond_opp. fold g. rewrite !align by (unfold g; lia). reflexivity. }
    rewrite <- v in *. destruct (normalize z g false) as (a & b & _); [|auto].
    destruct hm as [hm|hm]; [left|right; exact hm]. apply Rmult_integral in hm. pose proof (p2_gt g). destruct hm as [hm|hm]; [apply eq_IZR, hm|lra].
Qed.
Lemma opp_exact x : finite64 x -> finite64 (SFopp x) /\ SFR (SFopp x) = - SFR x.
Proof. destruct x as [s|s| |s m e]; try contradiction; cbn; intro h; (split; [exact h|]); [ring|destruct s; cbn; ring]. Qed.
Lemma eqb_zero x : finite64 x -> SFeqb x (f_lit 0) = Reqb (SFR x) 0.
Proof.
  intro h. change (f_lit 0) with (S754_zero false). destruct x as [s|s| |s m e]; try contradiction.
  - cbn. symmetry. apply Reqb_true. reflexivity.
  - replace (SFeqb (S754_finite s m e) (S754_zero false)) with false by (destruct s; reflexivity).
    symmetry. apply Reqb_false. intro q. apply (SFR_zero _ h) in q. destruct q; discriminate.
Qed.

(** ** Quotients of whole numbers, literals, whole powers *)
Lemma quot_near s m e n f : (0 < m)%Z -> (0 < n)%Z -> p2 (-1020) <= IZR m * p2 e / (IZR n * p2 f) <= p2 1020 ->
  finite64 (f_quot s m e n f) /\ near1 (/ 2 ^ 53) (sgn s * (IZR m * p2 e / (IZR n * p2 f))) (SFR (f_quot s m e n f)).
Proof.
  intros hm hn hx. unfold f_quot. destruct (div_core m e n f hm hn (proj1 hx)) as (q & e' & l & -> & rp & dq).
  destruct (round_ok s q e' l _ hx rp dq) as (r & -> & fr & nr & _). split; [exact fr|]. unfold near1.
  rewrite Rabs_mult, sgn_abs, Rmult_1_l, (Rabs_pos_eq (IZR m * p2 e / (IZR n * p2 f))); [exact nr|]. pose proof (p2_gt (-1020)). lra.
Qed.
