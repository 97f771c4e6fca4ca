(** * B64Round: literals are read as the nearest binary64 number *)
From Coq Require Import String List ZArith QArith Qcanon Bool Reals Qreals Lia Lra.
From Coq Require Import Floats.SpecFloat.
From Verif Require Import Py Num NumFacts Units Rounding RoundSpec RangeSpec FloatExp FloatRound B64Facts TextSpec PrintSpec.
Local Open Scope R_scope.
Local Notation p2 := (powerRZ 2).

Lemma p2_1 : p2 1 = 2.
Proof. change (p2 1) with (2 ^ 1). ring. Qed.

Lemma Rabs_le_inv x a : Rabs x <= a -> - a <= x <= a.
Proof. unfold Rabs. destruct (Rcase_abs x); lra. Qed.

(** ** Canonical numbers *)
Lemma bounded_cases m e : bounded 53 1024 m e = true ->
  (Zpos m < 2 ^ 53 /\ -1074 <= e <= 971 /\ (e = -1074 \/ 2 ^ 52 <= Zpos m))%Z.
Proof.
  unfold bounded, canonical_mantissa. intro h. apply andb_prop in h. destruct h as (h & h1). apply Zeq_bool_eq in h. apply Zle_is_le_bool in h1.
  unfold fexp, emin in h. pose proof (digits_spec m) as d. set (c := Z.pos (digits2_pos m)) in *.
  assert (c53 : (c <= 53)%Z) by lia. assert (c0 : (0 < c)%Z) by lia. split; [|split; [lia|]].
  - apply Z.lt_le_trans with (1 := proj2 d). apply Z.pow_le_mono_r; lia.
  - destruct (Z.eq_dec e (-1074)) as [|ne]; [left; assumption|right]. replace c with 53%Z in d by lia. exact (proj1 d).
Qed.
Lemma bounded_intro m e : (Zpos m < 2 ^ 53 /\ -1074 <= e <= 971 /\ (e = -1074 \/ 2 ^ 52 <= Zpos m))%Z -> bounded 53 1024 m e = true.
Proof.
  intros (h1 & h2 & h3). unfold bounded, canonical_mantissa. pose proof (digits_spec m) as d. set (c := Z.pos (digits2_pos m)) in *.
  assert (c0 : (0 < c)%Z) by lia. assert (c53 : (c <= 53)%Z) by (assert (k : (2 ^ (c - 1) < 2 ^ 53)%Z) by lia; apply Z.pow_lt_mono_r_iff in k; lia).
  apply andb_true_intro. split; [|apply Zle_is_le_bool; lia]. apply Zeq_is_eq_bool. unfold fexp, emin. destruct h3 as [->|h3]; [lia|].
  assert (k : (2 ^ 52 < 2 ^ c)%Z) by lia. apply Z.pow_lt_mono_r_iff in k; lia.
Qed.

(** A binary64 number is a multiple of [p2 f], or small. *)
Lemma float_grid y f : finite64 y -> (-1074 <= f)%Z -> (exists k, SFR y = IZR k * p2 f) \/ (Rabs (SFR y) < p2 (52 + f) /\ (-1074 < f)%Z).
Proof.
  intros h hf. destruct y as [s|s| |s m e]; try contradiction.
  - left. exists 0%Z. cbn [SFR]. ring.
  - destruct (bounded_cases m e h) as (h1 & h2 & _). destruct (Z_le_gt_dec f e) as [g|g].
    + left. exists ((if s then -1 else 1) * Zpos m * 2 ^ (e - f))%Z. rewrite !mult_IZR. rewrite <- p2_nonneg by lia. cbn [SFR].
      replace (p2 e) with (p2 (e - f) * p2 f) by (rewrite <- p2_add; f_equal; lia). destruct s; ring.
    + right. split; [|lia]. rewrite SFR_abs. apply Rlt_le_trans with (p2 53 * p2 e).
      * apply Rmult_lt_compat_r; [apply p2_gt|]. rewrite p2_nonneg by lia. apply IZR_lt. exact h1.
      * rewrite <- p2_add. apply p2_le. lia.
Qed.

(** ** The two shifts *)
Lemma norm_full m e l x : rep (shr_record_of_loc m l) e x -> (e <= fexp 53 1024 (Zdigits2 m + e))%Z ->
  let f := fexp 53 1024 (Zdigits2 m + e) in
  exists t, shr_fexp 53 1024 m e l = (t, f) /\ rep t f x /\ (0 <= shr_m t < 2 ^ 53)%Z /\ (f = -1074 \/ 2 ^ 52 <= shr_m t)%Z.
Proof.
  intros h he f. unfold shr_fexp. fold f. set (d := Zdigits2 m) in *.
  assert (ef : f = Z.max (d + e - 53) (-1074)) by reflexivity.
  pose proof (proj1 h) as h0. rewrite shr_m_loc in h0.
  assert (d0 : (0 <= d)%Z) by (unfold d; destruct m; cbn; lia).
  assert (hm : (m < 2 ^ d /\ (m = 0 \/ 2 ^ (d - 1) <= m))%Z).
  { destruct (Z.eq_dec m 0) as [->|n]; [cbn; lia|]. destruct (digits_Z m ltac:(lia)) as (_ & a). fold d in a. lia. }
  unfold shr. destruct (f - e)%Z as [|p|p] eqn:n; [| |unfold f, d in *; lia].
  - replace f with e by lia. eexists. split; [reflexivity|]. split; [exact h|]. rewrite shr_m_loc. split.
    + split; [exact h0|]. apply Z.lt_le_trans with (1 := proj1 hm). apply Z.pow_le_mono_r; lia.
    + destruct (Z.eq_dec e (-1074)) as [|ne]; [left; assumption|right]. assert (d = 53)%Z by lia. destruct hm as (_ & [->|hm]); [cbn in d; lia|].
      replace (d - 1)%Z with 52%Z in hm by lia. exact hm.
  - destruct (iter_rep p _ _ _ h) as (h1 & m1). exists (iter_pos shr_1 p (shr_record_of_loc m l)). replace f with (e + Z.pos p)%Z by lia. split; [reflexivity|]. split; [exact h1|].
    rewrite m1, shr_m_loc. assert (0 < 2 ^ Z.pos p)%Z by (apply Z.pow_pos_nonneg; lia). split.
    + split; [apply Z.div_pos; lia|]. apply Z.div_lt_upper_bound; [assumption|]. rewrite <- Z.pow_add_r by lia.
      apply Z.lt_le_trans with (1 := proj1 hm). apply Z.pow_le_mono_r; lia.
    + destruct (Z.eq_dec f (-1074)) as [|ne]; [left; lia|right]. destruct hm as (_ & [->|hm]); [cbn in d; lia|].
      apply Z.div_le_lower_bound; [assumption|]. rewrite <- Z.pow_add_r by lia. replace (Z.pos p + 52)%Z with (d - 1)%Z by lia. exact hm.
Qed.
Lemma ties_even t e x : rep t e x -> let m := round_nearest_even (shr_m t) (loc_of_shr_record t) in
  Rabs (IZR m * p2 e - x) = / 2 * p2 e -> Z.even m = true.
Proof.
  destruct t as [m r s]. intros (h & d & hd & ->). cbn [shr_m shr_r shr_s] in *. pose proof (p2_gt e) as p.
  assert (a : forall n, Rabs (IZR n * p2 e - (IZR m + d) * p2 e) = / 2 * p2 e -> Rabs (IZR n - (IZR m + d)) = / 2).
  { intros n hn. replace (IZR n * p2 e - (IZR m + d) * p2 e) with ((IZR n - (IZR m + d)) * p2 e) in hn by ring. rewrite Rabs_mult, (Rabs_pos_eq (p2 e)) in hn by lra.
    apply Rmult_eq_reg_r in hn; lra. }
  destruct r, s; cbn [loc_of_shr_record round_nearest_even frac] in *; intro k; apply a in k.
  - rewrite plus_IZR, Rabs_pos_eq in k; lra.
  - destruct (Z.even m) eqn:ev; [exact ev|]. rewrite Z.even_add, ev. reflexivity.
  - rewrite Rabs_left in k; lra.
  - subst d. replace (IZR m - (IZR m + 0)) with 0 in k by ring. rewrite Rabs_R0 in k. lra.
Qed.
(** What the second half of [binary_round_aux] returns. *)
Definition finish (s : bool) (n f : Z) : spec_float :=
  let '(t, e) := shr_fexp 53 1024 n f loc_Exact in
  match shr_m t with
  | Z0 => S754_zero s
  | Z.pos m => if Zle_bool e (1024 - 53) then S754_finite s m e else S754_infinity s
  | Z.neg _ => S754_nan
  end.
Lemma finish_ok s n f : (0 <= n <= 2 ^ 53)%Z -> (-1074 <= f)%Z -> (f = -1074 \/ 2 ^ 52 <= n)%Z ->
  (((f <= 970)%Z \/ (f = 971 /\ n < 2 ^ 53)%Z) -> finite64 (finish s n f) /\ SFR (finish s n f) = sgn s * (IZR n * p2 f) /\ (Z.even n = true -> even_float (finish s n f))) /\
  (((f = 971 /\ n = 2 ^ 53)%Z \/ (971 < f)%Z) -> finish s n f = S754_infinity s) /\
  (n = 0%Z -> finish s n f = S754_zero s) /\ sign_bit (finish s n f) = s.
Proof.
  intros hn hf hc. unfold finish, shr_fexp. destruct (Z.eq_dec n 0) as [->|n0].
  - assert (f = -1074)%Z by (destruct hc; [assumption|exfalso; revert H; cbn; lia]). subst f. cbn. split; [intros _; split; [exact I|]; split; [ring|trivial]|]. split; [lia|]. split; reflexivity.
  - destruct (Z.eq_dec n (2 ^ 53)) as [->|ne].
    + replace (Zdigits2 (2 ^ 53)) with 54%Z by reflexivity. unfold fexp, emin. replace (Z.max (54 + f - 53) (3 - 1024 - 53) - f)%Z with 1%Z by lia.
      cbn [shr iter_pos]. change (shr_m (shr_1 (shr_record_of_loc (2 ^ 53) loc_Exact))) with (2 ^ 52)%Z. cbn -[p2 Zle_bool bounded Z.even].
      split; [|split; [|split; [lia|destruct (Zle_bool (f + 1) 971); reflexivity]]].
      * intro h. rewrite (proj1 (Zle_is_le_bool (f + 1) 971)) by lia. split; [apply bounded_intro; lia|]. split; [|intros _; reflexivity].
        cbn [SFR]. fold (sgn s). f_equal. rewrite p2_add, p2_1.
        change (IZR (Z.pos 9007199254740992)) with (IZR (2 * 4503599627370496)). rewrite mult_IZR. ring.
      * intro h. destruct (Zle_bool (f + 1) 971) eqn:q; [apply Zle_is_le_bool in q; lia|reflexivity].
    + destruct (digits_Z n ltac:(lia)) as (d0 & d1). set (d := Zdigits2 n) in *.
      assert (d53 : (d <= 53)%Z) by (assert (k : (2 ^ (d - 1) < 2 ^ 53)%Z) by lia; apply Z.pow_lt_mono_r_iff in k; lia).
      assert (nrm : (f <> -1074 -> d = 53)%Z).
      { intro g. destruct hc as [hc|hc]; [contradiction|]. assert (k : (2 ^ 52 < 2 ^ d)%Z) by lia. apply Z.pow_lt_mono_r_iff in k; lia. }
      unfold fexp, emin. replace (Z.max (d + f - 53) (3 - 1024 - 53) - f)%Z with 0%Z by lia. cbn [shr shr_m shr_record_of_loc].
      destruct n as [|p|p]; [lia| |lia]. split; [|split; [|split; [lia|destruct (Zle_bool f (1024 - 53)); reflexivity]]].
      * intro h. rewrite (proj1 (Zle_is_le_bool f (1024 - 53))) by lia. split; [apply bounded_intro; lia|]. split; [reflexivity|]. intro q. exact q.
      * intro h. destruct (Zle_bool f (1024 - 53)) eqn:q; [apply Zle_is_le_bool in q; lia|reflexivity].
Qed.

(** ** Rounding *)
Lemma int_near n x : Rabs (IZR n - x) <= / 2 -> forall k, Rabs (IZR n - x) <= Rabs (IZR k - x) /\ (Rabs (IZR n - x) = Rabs (IZR k - x) -> k <> n -> Rabs (IZR n - x) = / 2).
Proof.
  intros h k. destruct (Z.eq_dec k n) as [->|ne]; [split; [lra|contradiction]|].
  assert (g : / 2 <= Rabs (IZR k - x)).
  { apply Rnot_lt_le. intro c. apply Rabs_def2 in c. apply Rabs_le_inv in h.
    assert (k < n + 1)%Z by (apply lt_IZR; rewrite plus_IZR; lra). assert (n - 1 < k)%Z by (apply lt_IZR; rewrite minus_IZR; lra). lia. }
  split; [lra|]. intros q _. lra.
Qed.
Definition top64 : R := IZR (2 ^ 54 - 1) * p2 970.
Lemma top64_split : top64 = (IZR (2 ^ 53) - / 2) * p2 971.
Proof. unfold top64. change 971%Z with (970 + 1)%Z. rewrite p2_add, p2_1. replace (IZR (2 ^ 54 - 1)) with (2 * IZR (2 ^ 53) - 1) by (rewrite minus_IZR; change (2 ^ 54)%Z with (2 * 2 ^ 53)%Z; rewrite mult_IZR; ring). field. Qed.
Lemma round_full s m e l x : 0 <= x -> rep (shr_record_of_loc m l) e x -> (e <= fexp 53 1024 (Zdigits2 m + e))%Z ->
  (x < top64 -> nearest64 (sgn s * x) (binary_round_aux 53 1024 s m e l)) /\
  (top64 <= x -> binary_round_aux 53 1024 s m e l = S754_infinity s) /\ sign_bit (binary_round_aux 53 1024 s m e l) = s.
Proof.
  intros hx h he. destruct (norm_full m e l x h he) as (t & et & ht & hm & hc). set (f := fexp 53 1024 (Zdigits2 m + e)) in *.
  assert (f0 : (-1074 <= f)%Z) by (unfold f, fexp, emin; lia).
  destruct (nearest_even t f x ht) as (n & en & hn & near & _). pose proof (ties_even t f x ht) as ties. rewrite en in ties. cbv zeta in ties.
  assert (eb : binary_round_aux 53 1024 s m e l = finish s n f) by (unfold binary_round_aux, finish; rewrite et, en; reflexivity). rewrite eb.
  destruct (finish_ok s n f) as (fin & inf & _ & sg); [lia|exact f0|lia|].
  pose proof (p2_gt f) as pf. pose proof (rep_bounds _ _ _ ht) as rb.
  assert (nd : Rabs (IZR n - x * / p2 f) <= / 2).
  { apply (Rmult_le_reg_r (p2 f)); [exact pf|]. rewrite <- (Rabs_pos_eq (p2 f)) at 2 by lra. rewrite <- Rabs_mult. replace ((IZR n - x * / p2 f) * p2 f) with (IZR n * p2 f - x) by (field; lra). exact near. }
  assert (sg1 : forall z, Rabs (sgn s * z - sgn s * x) = Rabs (z - x)).
  { intro z. rewrite <- Rmult_minus_distr_l, Rabs_mult, sgn_abs. ring. }
  assert (ss : sgn s * sgn s = 1) by (destruct s; cbn; lra).
  split; [|split; [|exact sg]].
  - intro lt. assert (small : (f <= 970)%Z \/ (f = 971 /\ n < 2 ^ 53)%Z).
    { destruct (Z_le_gt_dec f 970) as [|g]; [left; assumption|right]. assert (f1 : (f = 971)%Z).
      { destruct hc as [hc|hc]; [lia|]. assert (q : p2 (52 + f) < p2 1024).
        { apply Rle_lt_trans with x.
          - apply Rle_trans with (2 := proj1 rb). rewrite p2_add. apply Rmult_le_compat_r; [lra|]. rewrite p2_nonneg by lia. apply IZR_le. exact hc.
          - apply Rlt_trans with (1 := lt). rewrite top64_split. change 1024%Z with (53 + 971)%Z. rewrite (p2_add 53). apply Rmult_lt_compat_r; [apply p2_gt|]. rewrite p2_nonneg by lia. lra. }
        apply p2_lt_inv in q. lia. }
      split; [exact f1|]. assert (q : x * / p2 f < IZR (2 ^ 53) - / 2).
      { apply (Rmult_lt_reg_r (p2 f)); [exact pf|]. rewrite Rmult_assoc, Rinv_l, Rmult_1_r by lra. rewrite f1. rewrite <- top64_split. exact lt. }
      apply Rabs_le_inv in nd. apply lt_IZR. lra. }
    destruct (fin small) as (fi & va & ev). split; [exact fi|]. split; [rewrite Rabs_mult, sgn_abs, Rmult_1_l, Rabs_pos_eq by exact hx; exact lt|].
    assert (cmp : forall y, finite64 y -> Rabs (IZR n * p2 f - x) <= Rabs (sgn s * SFR y - x) /\
        (Rabs (IZR n * p2 f - x) = Rabs (sgn s * SFR y - x) -> sgn s * SFR y <> IZR n * p2 f -> Rabs (IZR n * p2 f - x) = / 2 * p2 f)).
    { assert (sc : forall k, Rabs (IZR k * p2 f - x) = Rabs (IZR k - x * / p2 f) * p2 f).
      { intro k. rewrite <- (Rabs_pos_eq (p2 f)) at 3 by lra. rewrite <- Rabs_mult. f_equal. field. lra. }
      intros y hy. destruct (float_grid y f hy f0) as [(k & ek)|(sm & g)].
      - assert (ek2 : sgn s * SFR y = IZR ((if s then -1 else 1) * k) * p2 f) by (rewrite ek, mult_IZR; destruct s; cbn [sgn]; ring).
        rewrite ek2. set (k2 := ((if s then -1 else 1) * k)%Z). destruct (int_near n _ nd k2) as (a & b). rewrite !sc. split; [apply Rmult_le_compat_r; lra|].
        intros q ne. apply Rmult_eq_reg_r in q; [|lra]. f_equal. apply b; [exact q|]. intro c. apply ne. rewrite c. reflexivity.
      - destruct hc as [hc|hc]; [lia|]. destruct (int_near n _ nd (2 ^ 52)) as (a & _). apply (Rmult_le_compat_r (p2 f)) in a; [|lra]. rewrite <- !sc in a.
        assert (lo : p2 (52 + f) <= x) by (apply Rle_trans with (2 := proj1 rb); rewrite p2_add; apply Rmult_le_compat_r; [lra|]; rewrite p2_nonneg by lia; apply IZR_le; exact hc).
        assert (e52 : IZR (2 ^ 52) * p2 f = p2 (52 + f)) by (rewrite p2_add, (p2_nonneg 52) by lia; reflexivity). rewrite e52 in a.
        assert (b : sgn s * SFR y < p2 (52 + f)).
        { apply Rle_lt_trans with (2 := sm). apply Rle_trans with (1 := Rle_abs _). rewrite Rabs_mult, sgn_abs. lra. }
        rewrite (Rabs_left1 (p2 (52 + f) - x)) in a by lra. rewrite (Rabs_left1 (sgn s * SFR y - x)) by lra. split; [lra|]. intro q. lra. }
    assert (tr : forall y, Rabs (SFR y - sgn s * x) = Rabs (sgn s * SFR y - x)).
    { intro y. rewrite <- (sg1 (sgn s * SFR y)). rewrite <- Rmult_assoc, ss, Rmult_1_l. reflexivity. }
    split.
    + intros y hy. rewrite va, sg1, tr. apply cmp, hy.
    + intros y hy q ne. apply ev. apply ties. rewrite va, sg1, tr in q. apply (proj2 (cmp y hy)); [exact q|]. intro c. apply ne. rewrite va, <- c, <- Rmult_assoc, ss. ring.
  - intro ge. apply inf. destruct (Z.eq_dec f 971) as [f1|f1].
    + left. split; [exact f1|]. assert (q : IZR (2 ^ 53) - / 2 <= x * / p2 f).
      { apply (Rmult_le_reg_r (p2 f)); [exact pf|]. rewrite Rmult_assoc, Rinv_l, Rmult_1_r by lra. rewrite f1, <- top64_split. exact ge. }
      destruct (Z.eq_dec n (2 ^ 53)) as [|ne]; [assumption|exfalso]. assert (le : (n <= 2 ^ 53 - 1)%Z) by lia. apply IZR_le in le. rewrite minus_IZR in le.
      apply Rabs_le_inv in nd. assert (xe : x * / p2 f = IZR (2 ^ 53) - / 2) by lra. assert (ne2 : IZR n = IZR (2 ^ 53) - 1) by lra.
      assert (od : Z.even n = true).
      { apply ties. replace (IZR n * p2 f - x) with (- (/ 2 * p2 f)); [rewrite Rabs_Ropp, Rabs_pos_eq; lra|]. replace x with (x * / p2 f * p2 f) by (field; lra). rewrite xe, ne2. field. }
      assert (n = 2 ^ 53 - 1)%Z by (apply eq_IZR; rewrite minus_IZR; exact ne2). rewrite H in od. discriminate od.
    + right. assert (q : p2 1023 < p2 (53 + f)); [|apply p2_lt_inv in q; lia].
      apply Rle_lt_trans with x.
      * apply Rle_trans with (2 := ge). rewrite top64_split. change 1023%Z with (52 + 971)%Z. rewrite (p2_add 52). apply Rmult_le_compat_r; [left; apply p2_gt|]. rewrite p2_nonneg by lia.
        change (2 ^ 53)%Z with (2 * 2 ^ 52)%Z. rewrite mult_IZR. assert (1 <= IZR (2 ^ 52)) by (apply IZR_le; lia). lra.
      * apply Rlt_le_trans with (1 := proj2 rb). rewrite p2_add. apply Rmult_le_compat_r; [lra|]. rewrite p2_nonneg by lia. rewrite <- plus_IZR. apply IZR_le. lia.
Qed.

(** ** Quotients and whole numbers *)
Lemma fexp_mono a b : (a <= b)%Z -> (fexp 53 1024 a <= fexp 53 1024 b)%Z.
Proof. unfold fexp. lia. Qed.
Lemma div_core_full m n : (0 < m)%Z -> (0 < n)%Z ->
  exists q e' l, SFdiv_core_binary 53 1024 m 0 n 0 = (q, e', l) /\ rep (shr_record_of_loc q l) e' (IZR m / IZR n) /\ (e' <= fexp 53 1024 (Zdigits2 q + e'))%Z.
Proof.
  intros hm hn. unfold SFdiv_core_binary. destruct (digits_Z m hm) as (c0 & dm). destruct (digits_Z n hn) as (d0 & dn).
  set (c := Zdigits2 m) in *. set (d := Zdigits2 n) in *.
  assert (pm : 0 < IZR m) by (apply IZR_lt, hm). assert (pn : 0 < IZR n) by (apply IZR_lt, hn).
  replace (c + 0 - (d + 0))%Z with (c - d)%Z by lia. change (0 - 0)%Z with 0%Z.
  set (e' := Z.min (fexp 53 1024 (c - d)) 0). set (s := (0 - e')%Z). assert (s0 : (0 <= s)%Z) by lia.
  assert (em : match s with Z0 => m | Z.pos _ => Z.shiftl m s | Z.neg _ => 0%Z end = (m * 2 ^ s)%Z).
  { rewrite <- Z.shiftl_mul_pow2 by exact s0. destruct s; [rewrite Z.shiftl_0_r; reflexivity|reflexivity|lia]. }
  rewrite em. pose proof (Z_div_mod (m * 2 ^ s) n ltac:(lia)) as dm2. destruct (Z.div_eucl (m * 2 ^ s) n) as (q, r). destruct dm2 as (eq1 & hr).
  exists q, e', (new_location n r). split; [reflexivity|].
  assert (p2s : (0 < 2 ^ s)%Z) by (apply Z.pow_pos_nonneg; lia).
  assert (q0 : (0 <= q)%Z) by nia.
  assert (ex : IZR m / IZR n = (IZR q + IZR r / IZR n) * p2 e').
  { assert (k : IZR m * p2 s = IZR n * IZR q + IZR r) by (rewrite p2_nonneg by exact s0; rewrite <- !mult_IZR, <- plus_IZR; f_equal; exact eq1).
    replace (IZR q + IZR r / IZR n) with ((IZR n * IZR q + IZR r) / IZR n) by (field; lra). rewrite <- k. unfold s.
    replace (0 - e')%Z with (- e')%Z by lia. rewrite !p2_opp. pose proof (p2_gt e'). field. split; lra. }
  rewrite ex. split; [apply new_location_rep; lia|].
  (* the quotient has at least c - d + s bits *)
  assert (big : (c - d + s <= Zdigits2 q)%Z).
  { destruct (Z_le_gt_dec (c - d + s) 0) as [g|g]; [apply Z.le_trans with (1 := g); destruct q; cbn; lia|].
    assert (lo : (2 ^ (c - 1 + s) < 2 ^ d * (q + 1))%Z).
    { apply Z.le_lt_trans with (m * 2 ^ s)%Z; [rewrite Z.pow_add_r by lia; apply Z.mul_le_mono_nonneg_r; lia|].
      rewrite eq1. apply Z.lt_le_trans with (n * (q + 1))%Z; [nia|]. apply Z.mul_le_mono_nonneg_r; lia. }
    replace (c - 1 + s)%Z with (d + (c - d + s - 1))%Z in lo by lia. rewrite (Z.pow_add_r 2 d) in lo by lia.
    apply Z.mul_lt_mono_pos_l in lo; [|apply Z.pow_pos_nonneg; lia].
    assert (qp : (0 < q)%Z) by (assert (0 < 2 ^ (c - d + s - 1))%Z by (apply Z.pow_pos_nonneg; lia); lia).
    destruct (digits_Z q qp) as (d1 & dq). assert (k : (2 ^ (c - d + s - 1) < 2 ^ Zdigits2 q)%Z) by lia. apply Z.pow_lt_mono_r_iff in k; lia. }
  apply Z.le_trans with (fexp 53 1024 (c - d)); [lia|]. apply fexp_mono. lia.
Qed.
Lemma quot_full s m n : (0 < m)%Z -> (0 < n)%Z ->
  (IZR m / IZR n < top64 -> nearest64 (sgn s * (IZR m / IZR n)) (f_quot s m 0 n 0)) /\
  (top64 <= IZR m / IZR n -> f_quot s m 0 n 0 = S754_infinity s) /\ sign_bit (f_quot s m 0 n 0) = s.
Proof.
  intros hm hn. unfold f_quot. destruct (div_core_full m n hm hn) as (q & e & l & -> & rp & he).
  apply (round_full s q e l _); [|exact rp|exact he]. left. apply Rdiv_lt_0_compat; apply IZR_lt; assumption.
Qed.
Lemma int_full s m :
  (IZR (Zpos m) < top64 -> nearest64 (sgn s * IZR (Zpos m)) (binary_round 53 1024 s m 0)) /\
  (top64 <= IZR (Zpos m) -> binary_round 53 1024 s m 0 = S754_infinity s) /\ sign_bit (binary_round 53 1024 s m 0) = s.
Proof.
  unfold binary_round. pose proof (digits_spec m) as d. set (c := Zpos (digits2_pos m)) in *. assert (c0 : (0 < c)%Z) by lia.
  destruct (shl_align m 0 (fexp 53 1024 (c + 0))) as (mz, ez) eqn:sa.
  assert (k : IZR (Zpos mz) * p2 ez = IZR (Zpos m) /\ (ez <= fexp 53 1024 (Zdigits2 (Zpos mz) + ez))%Z).
  { unfold shl_align in sa. replace (fexp 53 1024 (c + 0) - 0)%Z with (c - 53)%Z in sa by (unfold fexp, emin; lia).
    replace (fexp 53 1024 (c + 0)) with (c - 53)%Z in sa by (unfold fexp, emin; lia).
    destruct (c - 53)%Z as [|p|p] eqn:q; injection sa as <- <-.
    - split; [change (p2 0) with 1; ring|]. cbn [Zdigits2]. fold c. unfold fexp, emin. lia.
    - split; [change (p2 0) with 1; ring|]. cbn [Zdigits2]. fold c. unfold fexp, emin. lia.
    - split; [rewrite shift_pos_val, mult_IZR, <- p2_nonneg by lia; rewrite Rmult_assoc, <- p2_add; replace (Z.pos p + Z.neg p)%Z with 0%Z by lia; change (p2 0) with 1; ring|].
      replace (Zdigits2 (Z.pos (shift_pos p m))) with (c + Z.pos p)%Z; [unfold fexp, emin; lia|]. symmetry. apply digits_unique; [lia|].
      rewrite shift_pos_val. replace (c + Z.pos p - 1)%Z with (c - 1 + Z.pos p)%Z by lia. rewrite !Z.pow_add_r by lia.
      assert (0 < 2 ^ Zpos p)%Z by (apply Z.pow_pos_nonneg; lia). nia. }
  destruct k as (k1 & k2). rewrite <- k1. apply (round_full s (Zpos mz) ez loc_Exact); [|apply rep_exact; lia|exact k2].
  rewrite k1. apply IZR_le. lia.
Qed.
Lemma Q2R_pos n d : Q2R (Zpos n # d) = IZR (Zpos n) / IZR (Zpos d).
Proof. reflexivity. Qed.
Lemma lit_full n d : let v := IZR (Zpos n) / IZR (Zpos d) in
  (v < top64 -> nearest64 v (f_lit (Zpos n # d))) /\ (top64 <= v -> f_lit (Zpos n # d) = S754_infinity false) /\ sign_bit (f_lit (Zpos n # d)) = false.
Proof.
  intro v. unfold f_lit. cbn [Qnum Qden]. destruct (Pos.eqb d 1) eqn:e.
  - apply Pos.eqb_eq in e. subst d. unfold v, f_int. cbn [binary_normalize]. destruct (int_full false n) as (a & b & c). cbn [sgn] in a.
    unfold Rdiv. rewrite Rinv_1, Rmult_1_r. rewrite Rmult_1_l in a. auto.
  - destruct (quot_full false (Zpos n) (Zpos d) eq_refl eq_refl) as (a & b & c). cbn [sgn] in a. rewrite Rmult_1_l in a. auto.
Qed.

(** ** The nearest number is unique *)
Lemma nearest_opp v x : nearest64 v x -> nearest64 (- v) (SFopp x).
Proof.
  assert (o : forall y, Rabs (SFR (SFopp y) - - v) = Rabs (SFR y - v)).
  { intro y. replace (SFR (SFopp y)) with (- SFR y) by (destruct y as [s|s| |s m e]; cbn; try ring; destruct s; cbn; ring). rewrite <- Rabs_Ropp. f_equal. ring. }
  assert (oo : forall y, SFopp (SFopp y) = y) by (intros [[]|[]| |[] m e]; reflexivity).
  assert (of : forall y, finite64 y -> finite64 (SFopp y)) by (intros [s|s| |s m e]; exact (fun h => h)).
  assert (ov : forall y, SFR (SFopp y) = - SFR y) by (intros [s|s| |s m e]; cbn; try ring; destruct s; cbn; ring).
  intros (h1 & h2 & h3 & h4). split; [apply of, h1|]. split; [rewrite Rabs_Ropp; exact h2|]. split.
  - intros y hy. rewrite o. rewrite <- (oo y). rewrite o. apply h3, of, hy.
  - intros y hy. rewrite o. rewrite <- (oo y). rewrite o. intros q ne.
    assert (k : even_float x) by (apply (h4 (SFopp y)); [apply of, hy|exact q|]; intro c; apply ne; rewrite ov, c, ov; reflexivity).
    destruct x as [s|s| |s m e]; exact k.
Qed.
Lemma SFR_inj x y : finite64 x -> finite64 y -> SFR x = SFR y -> SFR x <> 0 -> x = y.
Proof.
  intros hx hy e ne. destruct x as [s|s| |s m f], y as [t|t| |t n g]; try contradiction; try (exfalso; apply ne; reflexivity).
  assert (pm : 0 < IZR (Zpos m)) by (apply IZR_lt; lia). assert (pn : 0 < IZR (Zpos n)) by (apply IZR_lt; lia). pose proof (p2_gt f). pose proof (p2_gt g).
  assert (a : IZR (Zpos m) * p2 f = IZR (Zpos n) * p2 g) by (rewrite <- (SFR_abs s), <- (SFR_abs t), e; reflexivity).
  assert (st : s = t).
  { destruct s, t; try reflexivity; cbn [SFR] in e; assert (0 < IZR (Zpos m) * p2 f) by (apply Rmult_lt_0_compat; assumption); lra. }
  subst t. destruct (bounded_cases _ _ hx) as (a1 & a2 & a3). destruct (bounded_cases _ _ hy) as (b1 & b2 & b3).
  assert (W : forall m n f g, (Zpos n < 2 ^ 53 -> (f = -1074 \/ 2 ^ 52 <= Zpos m) -> -1074 <= g)%Z -> (Zpos n < 2 ^ 53)%Z -> (f = -1074 \/ 2 ^ 52 <= Zpos m)%Z -> (-1074 <= g)%Z -> IZR (Zpos m) * p2 f = IZR (Zpos n) * p2 g -> (f <= g)%Z).
  { clear. intros m n f g _ hn hm hg q. destruct hm as [hm|hm]; [lia|]. assert (k : p2 (52 + f) < p2 (53 + g)); [|apply p2_lt_inv in k; lia].
    rewrite !p2_add. apply Rle_lt_trans with (IZR (Zpos m) * p2 f).
    - apply Rmult_le_compat_r; [left; apply p2_gt|]. rewrite p2_nonneg by lia. apply IZR_le, hm.
    - rewrite q. apply Rmult_lt_compat_r; [apply p2_gt|]. rewrite p2_nonneg by lia. apply IZR_lt, hn. }
  assert (f <= g)%Z by (apply (W m n f g); try assumption; lia). assert (g <= f)%Z by (apply (W n m g f); try assumption; try lia; symmetry; exact a).
  assert (f = g) by lia. subst g. apply Rmult_eq_reg_r in a; [|lra]. apply eq_IZR in a. injection a as ->. reflexivity.
Qed.
Lemma next_up m e y : finite64 (S754_finite false m e) -> finite64 y -> SFR (S754_finite false m e) < SFR y -> SFR (S754_finite false m e) + p2 e <= SFR y.
Proof.
  intros hx hy lt. destruct (bounded_cases _ _ hx) as (a1 & a2 & a3). pose proof (p2_gt e) as pe. cbn [SFR] in lt |- *. rewrite Rmult_1_l in *.
  destruct (float_grid y e hy ltac:(lia)) as [(k & ek)|(sm & g)].
  - rewrite ek in *. apply Rmult_lt_reg_r in lt; [|exact pe]. apply lt_IZR in lt.
    replace (IZR (Z.pos m) * p2 e + p2 e) with (IZR (Zpos m + 1) * p2 e) by (rewrite plus_IZR; ring). apply Rmult_le_compat_r; [lra|]. apply IZR_le. lia.
  - exfalso. destruct a3 as [a3|a3]; [lia|]. assert (p2 (52 + e) <= IZR (Zpos m) * p2 e).
    { rewrite p2_add. apply Rmult_le_compat_r; [lra|]. rewrite p2_nonneg by lia. apply IZR_le, a3. }
    pose proof (Rle_abs (SFR y)). lra.
Qed.
Lemma unique_pos v x y : nearest64 v x -> nearest64 v y -> 0 <= SFR x < SFR y -> False.
Proof.
  intros (hx & _ & nx & ex) (hy & _ & ny & ey) (p & lt). pose proof (nx y hy) as a. pose proof (ny x hx) as b. assert (eq : Rabs (SFR x - v) = Rabs (SFR y - v)) by lra.
  assert (mid : v = (SFR x + SFR y) / 2) by (revert eq; unfold Rabs; destruct (Rcase_abs (SFR x - v)), (Rcase_abs (SFR y - v)); lra).
  assert (btw : forall z, finite64 z -> SFR x < SFR z < SFR y -> False).
  { intros z hz (c1 & c2). pose proof (nx z hz) as c. revert c. rewrite mid. rewrite (Rabs_left (SFR x - _)) by lra. unfold Rabs. destruct (Rcase_abs (SFR z - (SFR x + SFR y) / 2)); lra. }
  assert (evx : even_float x) by (apply (ex y hy eq); lra). assert (evy : even_float y) by (apply (ey x hx); [symmetry; exact eq|lra]).
  (* the next number above x *)
  assert (nxt : exists m e, finite64 (S754_finite false m e) /\ Z.even (Zpos m) = false /\ SFR x < SFR (S754_finite false m e) /\ SFR (S754_finite false m e) <= SFR y).
  { destruct x as [s|s| |s m e]; try contradiction.
    - exists 1%positive, (-1074)%Z. split; [reflexivity|]. split; [reflexivity|]. cbn [SFR] in *. rewrite !Rmult_1_l. pose proof (p2_gt (-1074)). split; [lra|].
      destruct (float_grid y (-1074) hy ltac:(lia)) as [(k & ek)|(_ & g)]; [|lia]. rewrite ek in *. assert (0 < IZR k) by (apply (Rmult_lt_reg_r (p2 (-1074))); lra).
      apply lt_IZR in H0. rewrite <- (Rmult_1_l (p2 _)) at 1. apply Rmult_le_compat_r; [lra|]. apply IZR_le. lia.
    - pose proof (SFR_abs s m e) as sa. assert (s = false).
      { destruct s; [|reflexivity]. exfalso. rewrite Rabs_pos_eq in sa by exact p. cbn [SFR] in sa. pose proof (p2_gt e). assert (0 < IZR (Zpos m)) by (apply IZR_lt; lia). assert (0 < IZR (Zpos m) * p2 e) by (apply Rmult_lt_0_compat; assumption). lra. }
      subst s. destruct (bounded_cases _ _ hx) as (a1 & a2 & a3). cbn [even_float] in evx.
      assert (ev1 : Z.even (Zpos (m + 1)) = false) by (rewrite Pos2Z.inj_add, Z.even_add, evx; reflexivity).
      exists (m + 1)%positive, e. split; [|split; [exact ev1|]].
      + apply bounded_intro. split; [|lia]. assert (Zpos (m + 1) <> 2 ^ 53)%Z by (intro q; rewrite q in ev1; discriminate ev1). lia.
      + assert (s1 : SFR (S754_finite false (m + 1) e) = SFR (S754_finite false m e) + p2 e) by (cbn [SFR]; rewrite Pos2Z.inj_add, plus_IZR; ring).
        rewrite s1. pose proof (p2_gt e). split; [lra|]. apply next_up; assumption. }
  destruct nxt as (m & e & fz & od & l1 & l2). destruct (Rle_lt_or_eq_dec _ _ l2) as [l3|l3]; [apply (btw _ fz); lra|].
  assert (q : S754_finite false m e = y) by (apply SFR_inj; [exact fz|exact hy|exact l3|lra]). subst y. cbn [even_float] in evy. congruence.
Qed.
Lemma nearest_unique v x y : nearest64 v x -> nearest64 v y -> SFR x = SFR y.
Proof.
  assert (ov : forall y, SFR (SFopp y) = - SFR y) by (intros [s|s| |s m e]; cbn; try ring; destruct s; cbn; ring).
  assert (W : forall v x y, nearest64 v x -> nearest64 v y -> SFR x < SFR y -> False).
  { clear v x y. intros v x y hx hy lt. destruct (Rle_lt_dec 0 (SFR x)) as [p|p]; [apply (unique_pos v x y hx hy); lra|].
    destruct (Rle_lt_dec (SFR y) 0) as [n|n].
    - apply (unique_pos (- v) (SFopp y) (SFopp x)); [apply nearest_opp, hy|apply nearest_opp, hx|]. rewrite !ov. lra.
    - destruct hx as (fx & _ & nx & _). destruct hy as (fy & _ & ny & _). pose proof (nx (S754_zero false) I) as a. pose proof (ny (S754_zero false) I) as b. cbn [SFR] in *.
      revert a b. unfold Rabs. destruct (Rcase_abs (SFR x - v)), (Rcase_abs (SFR y - v)), (Rcase_abs (0 - v)); lra. }
  intros hx hy. destruct (Rtotal_order (SFR x) (SFR y)) as [l|[l|l]]; [exfalso; exact (W v x y hx hy l)|exact l|exfalso; exact (W v y x hy hx l)].
Qed.
Lemma lit_iff n d x : finite64 x -> 0 < SFR x -> f_lit (Zpos n # d) = x <-> nearest64 (IZR (Zpos n) / IZR (Zpos d)) x.
Proof.
  intros hx px. destruct (lit_full n d) as (a & b & c). split.
  - intro e. rewrite <- e. apply a. apply Rnot_le_lt. intro g. rewrite (b g) in e. subst x. exact hx.
  - intro h. assert (lt : IZR (Zpos n) / IZR (Zpos d) < top64) by (apply Rle_lt_trans with (1 := Rle_abs _); apply h).
    specialize (a lt). apply SFR_inj; [apply a|exact hx|exact (nearest_unique _ _ _ a h)|]. rewrite (nearest_unique _ _ _ a h). lra.
Qed.

(** ** Intervals and gaps *)
Lemma nearest_between a b v x : nearest64 a x -> nearest64 b x -> a <= v <= b -> nearest64 v x.
Proof.
  intros (hx & ta & na & ea) (_ & tb & nb & eb) hv. split; [exact hx|]. split.
  { apply Rabs_def1; [apply Rabs_def2 in tb; lra|apply Rabs_def2 in ta; lra]. }
  assert (A : forall u y, finite64 y -> (forall y, finite64 y -> Rabs (SFR x - u) <= Rabs (SFR y - u)) -> (SFR x < SFR y -> 2 * u <= SFR x + SFR y) /\ (SFR y < SFR x -> SFR x + SFR y <= 2 * u)).
  { intros u y hy n. specialize (n y hy). revert n. unfold Rabs. destruct (Rcase_abs (SFR x - u)), (Rcase_abs (SFR y - u)); lra. }
  split; intros y hy; destruct (A a y hy na) as (a1 & a2); destruct (A b y hy nb) as (b1 & b2).
  - unfold Rabs. destruct (Rtotal_order (SFR x) (SFR y)) as [l|[l|l]]; [specialize (b1 l)|rewrite l; lra|specialize (a2 l)];
      destruct (Rcase_abs (SFR x - v)), (Rcase_abs (SFR y - v)); lra.
  - intros q ne. destruct (Rtotal_order (SFR x) (SFR y)) as [l|[l|l]]; [|exfalso; apply ne; symmetry; exact l|].
    + apply (eb y hy); [|exact ne]. specialize (b1 l). assert (v = (SFR x + SFR y) / 2) by (revert q; unfold Rabs; destruct (Rcase_abs (SFR x - v)), (Rcase_abs (SFR y - v)); lra).
      assert (b = v) by lra. subst b. exact q.
    + apply (ea y hy); [|exact ne]. specialize (a2 l). assert (v = (SFR x + SFR y) / 2) by (revert q; unfold Rabs; destruct (Rcase_abs (SFR x - v)), (Rcase_abs (SFR y - v)); lra).
      assert (a = v) by lra. subst a. exact q.
Qed.
Lemma gap m e y : let x := S754_finite false m e in finite64 x -> finite64 y -> SFR y <> SFR x ->
  p2 e <= Rabs (SFR y - SFR x) \/ (Zpos m = 2 ^ 52 /\ -1074 < e)%Z /\ p2 e / 2 <= Rabs (SFR y - SFR x).
Proof.
  intros x hx hy ne. destruct (bounded_cases _ _ hx) as (a1 & a2 & a3). pose proof (p2_gt e) as pe. assert (vx : SFR x = IZR (Zpos m) * p2 e) by (cbn; ring).
  assert (G : forall f j, (f <= e)%Z -> IZR (Zpos m) * p2 e = IZR j * p2 f -> (exists k, SFR y = IZR k * p2 f) -> p2 f <= Rabs (SFR y - SFR x)).
  { intros f j hf ej (k & ek). pose proof (p2_gt f). rewrite ek, vx, ej in *. rewrite <- Rmult_minus_distr_r, Rabs_mult, (Rabs_pos_eq (p2 f)) by lra.
    rewrite <- (Rmult_1_l (p2 f)) at 1. apply Rmult_le_compat_r; [lra|]. rewrite <- minus_IZR, <- abs_IZR. apply IZR_le. assert (k <> j) by (intro; subst; apply ne; reflexivity). lia. }
  destruct (float_grid y e hy ltac:(lia)) as [k|(sm & g)]; [left; apply (G e (Zpos m)); [lia|reflexivity|exact k]|].
  destruct a3 as [a3|a3]; [lia|]. pose proof (Rle_abs (SFR y)) as la.
  assert (e52 : p2 (52 + e) = IZR (2 ^ 52) * p2 e) by (rewrite p2_add, (p2_nonneg 52) by lia; reflexivity).
  assert (lt : SFR y < SFR x) by (rewrite vx; apply Rlt_le_trans with (p2 (52 + e)); [lra|]; rewrite e52; apply Rmult_le_compat_r; [lra|]; apply IZR_le, a3).
  rewrite (Rabs_left (SFR y - SFR x)) in * by lra.
  destruct (Z.eq_dec (Zpos m) (2 ^ 52)) as [m52|m52].
  - right. split; [split; assumption|]. assert (e1 : p2 e = 2 * p2 (e - 1)) by (pose proof (p2_add 1 (e - 1)) as q; rewrite p2_1 in q; replace (1 + (e - 1))%Z with e in q by lia; exact q).
    destruct (float_grid y (e - 1) hy ltac:(lia)) as [k|(sm1 & g1)].
    + replace (p2 e / 2) with (p2 (e - 1)) by lra. apply (G (e - 1)%Z (2 ^ 53)%Z); [lia| |exact k]. rewrite m52, e1. change (2 ^ 53)%Z with (2 * 2 ^ 52)%Z. rewrite mult_IZR. ring.
    + rewrite p2_add in sm1. rewrite (p2_nonneg 52) in sm1 by lia. rewrite vx, m52. assert (1 <= IZR (2 ^ 52)) by (apply IZR_le; lia).
      assert (p2 (e - 1) <= IZR (2 ^ 52) * p2 (e - 1)) by (pose proof (p2_gt (e - 1)); nra). rewrite e1. lra.
  - left. assert (le : (2 ^ 52 + 1 <= Zpos m)%Z) by lia. apply IZR_le in le. rewrite plus_IZR in le. rewrite vx. assert ((IZR (2 ^ 52) + 1) * p2 e <= IZR (Zpos m) * p2 e) by (apply Rmult_le_compat_r; lra). rewrite e52 in sm. lra.
Qed.
Lemma nearest_close m e v : let x := S754_finite false m e in finite64 x ->
  Rabs (v - SFR x) < p2 e / 2 -> ((Zpos m = 2 ^ 52)%Z -> Rabs (v - SFR x) < p2 e / 4) -> nearest64 v x.
Proof.
  intros x hx h1 h2. destruct (bounded_cases _ _ hx) as (a1 & a2 & a3). pose proof (p2_gt e) as pe. assert (vx : SFR x = IZR (Zpos m) * p2 e) by (cbn; ring).
  assert (G : forall y, finite64 y -> SFR y <> SFR x -> Rabs (SFR x - v) < Rabs (SFR y - v)).
  { intros y hy ne. rewrite (Rabs_minus_sym (SFR x) v). assert (k : 2 * Rabs (v - SFR x) < Rabs (SFR y - SFR x)) by (destruct (gap m e y hx hy ne) as [g|((m52 & _) & g)]; [fold x in g; lra|specialize (h2 m52); fold x in g; lra]).
    assert (t : Rabs (SFR y - SFR x) <= Rabs (SFR y - v) + Rabs (v - SFR x)) by (replace (SFR y - SFR x) with ((SFR y - v) + (v - SFR x)) by ring; apply Rabs_triang). lra. }
  split; [exact hx|]. split; [|split].
  - fold top64. assert (p : 0 < SFR x) by (rewrite vx; apply Rmult_lt_0_compat; [apply IZR_lt; lia|exact pe]).
    assert (l1 : p2 e / 2 <= p2 971 / 2) by (pose proof (p2_le e 971 ltac:(lia)); lra).
    assert (l2 : SFR x <= (IZR (2 ^ 53) - 1) * p2 971).
    { rewrite vx. apply Rmult_le_compat; [apply IZR_le; lia|lra| |apply p2_le; lia]. rewrite <- minus_IZR. apply IZR_le. lia. }
    rewrite top64_split. apply Rabs_def2 in h1. assert (1 <= IZR (2 ^ 53)) by (apply IZR_le; lia). assert (0 < (IZR (2 ^ 53) - / 2) * p2 971) by (apply Rmult_lt_0_compat; [lra|apply p2_gt]).
    assert (s : SFR x + p2 971 / 2 <= (IZR (2 ^ 53) - / 2) * p2 971) by lra. apply Rabs_def1; [lra|].
    assert (p2 e <= SFR x) by (rewrite vx; rewrite <- (Rmult_1_l (p2 e)) at 1; apply Rmult_le_compat_r; [lra|apply IZR_le; lia]). lra.
  - intros y hy. destruct (Req_dec (SFR y) (SFR x)) as [->|ne]; [lra|]. left. apply G; assumption.
  - intros y hy q ne. pose proof (G y hy ne). lra.
Qed.
