(** * FloatRound: what rounding to binary64 keeps *)
From Coq Require Import String List ZArith QArith Qcanon Bool Reals Qreals Lia Lra.
From Verif Require Import Py Num NumFacts UnitsStruct FloatExp.
Local Open Scope R_scope.

Notation p2 := (powerRZ 2).
Lemma p2_add a b : p2 (a + b) = p2 a * p2 b. Proof. apply powerRZ_add. lra. Qed.
Lemma p2_gt z : 0 < p2 z. Proof. apply powerRZ_lt. lra. Qed.
Lemma p2_nonneg z : (0 <= z)%Z -> p2 z = IZR (2 ^ z).
Proof. intro h. rewrite <- (Z2Nat.id z) by exact h. rewrite <- pow_powerRZ. rewrite (pow_IZR 2). reflexivity. Qed.
Lemma p2_opp z : p2 (- z) = / p2 z.
Proof.
  pose proof (p2_add z (- z)) as h. replace (z + - z)%Z with 0%Z in h by lia. cbn [powerRZ] in h. pose proof (p2_gt z).
  apply Rmult_eq_reg_l with (p2 z); [|lra]. rewrite <- h. field. lra.
Qed.
Lemma p2_le a b : (a <= b)%Z -> p2 a <= p2 b.
Proof.
  intro h. replace b with (a + (b - a))%Z by lia. rewrite p2_add. pose proof (p2_gt a).
  rewrite (p2_nonneg (b - a)) by lia. assert (1 <= IZR (2 ^ (b - a))).
  { apply (IZR_le 1). pose proof (Z.pow_pos_nonneg 2 (b - a)). lia. }
  nra.
Qed.
Lemma p2_lt_inv a b : p2 a < p2 b -> (a < b)%Z.
Proof. intro h. destruct (Z_lt_le_dec a b) as [|c]; [assumption|]. apply p2_le in c. lra. Qed.
Lemma p2_int z : (0 <= z)%Z -> exists k, p2 z = IZR k.
Proof. intro h. exists (2 ^ z)%Z. apply p2_nonneg. exact h. Qed.

(** ** Division to the nearest whole number *)
Lemma div_even_exact q d : (0 < d)%Z -> div_even (q * d) d = q.
Proof.
  intro h. unfold div_even. rewrite Z.div_mul, Z.mod_mul by lia.
  destruct (2 * 0 ?= d)%Z eqn:e; [apply Z.compare_eq in e; lia|reflexivity|].
  apply Z.compare_gt_iff in e. lia.
Qed.
Lemma div_even_near n d : (0 < d)%Z -> Rabs (IZR (div_even n d) - IZR n / IZR d) <= / 2.
Proof.
  intro h. assert (hd : 0 < IZR d) by (apply IZR_lt; exact h).
  assert (e : IZR n / IZR d = IZR (n / d) + IZR (n mod d) / IZR d).
  { rewrite (Z_div_mod_eq_full n d) at 1. rewrite plus_IZR, mult_IZR. field. lra. }
  assert (b : 0 <= IZR (n mod d) / IZR d) by (apply Rmult_le_pos; [apply IZR_le, Z.mod_pos_bound; exact h|left; apply Rinv_0_lt_compat; exact hd]).
  rewrite e. set (x := IZR (n mod d) / IZR d) in *. assert (ex : IZR (n mod d) = x * IZR d) by (unfold x; field; lra).
  unfold div_even. destruct (2 * (n mod d) ?= d)%Z eqn:c.
  - apply Z.compare_eq in c. apply (f_equal IZR) in c. rewrite mult_IZR, ex in c. assert (x = / 2) by nra.
    destruct (Z.even (n / d)); [|rewrite plus_IZR]; apply Rabs_le; lra.
  - apply (proj1 (Z.compare_lt_iff _ _)) in c. apply IZR_lt in c. rewrite mult_IZR, ex in c. assert (x < / 2) by nra. apply Rabs_le; lra.
  - apply Z.compare_gt_iff in c. apply IZR_lt in c. rewrite mult_IZR, ex in c. assert (/ 2 < x) by nra.
    assert (x < 1).
    { assert (hm : (n mod d < d)%Z) by (apply Z.mod_pos_bound; exact h). apply IZR_lt in hm. rewrite ex in hm. nra. }
    rewrite plus_IZR. apply Rabs_le; lra.
Qed.

(** ** The last bit *)
Lemma last_bit_low n d : (0 < n)%Z -> (0 < d)%Z ->
  (-1074 <= last_bit n d)%Z /\ ((-1074 < last_bit n d)%Z -> IZR d * p2 (52 + last_bit n d) <= IZR n).
Proof.
  intros hn hd. unfold last_bit. set (s := (Z.log2 n - Z.log2 d)%Z). split; [lia|]. intro h.
  pose proof (Z.log2_spec n hn) as [n1 _]. pose proof (Z.log2_spec d hd) as [_ d2].
  destruct (if (0 <=? s)%Z then (d * 2 ^ s <=? n)%Z else (d <=? n * 2 ^ - s)%Z) eqn:f.
  - rewrite Z.max_r by lia. replace (52 + (s - 52))%Z with s by lia. destruct (0 <=? s)%Z eqn:c.
    + apply Z.leb_le in f, c. apply IZR_le in f. rewrite mult_IZR in f. rewrite p2_nonneg by exact c. exact f.
    + apply Z.leb_gt in c. apply Z.leb_le in f. apply IZR_le in f. rewrite mult_IZR, <- p2_nonneg, p2_opp in f by lia.
      pose proof (p2_gt s). apply Rmult_le_compat_r with (r := p2 s) in f; [|lra]. rewrite Rmult_assoc, Rinv_l in f by lra. lra.
  - rewrite Z.max_r by lia. replace (52 + (s - 53))%Z with (s - 1)%Z by lia.
    assert (ed : IZR d <= p2 (Z.log2 d + 1)).
    { rewrite p2_nonneg by (pose proof (Z.log2_nonneg d); lia). apply IZR_le. rewrite Z.add_1_r. lia. }
    apply Rle_trans with (p2 (Z.log2 n)).
    + replace (Z.log2 n) with (Z.log2 d + 1 + (s - 1))%Z by (unfold s; lia). rewrite p2_add. apply Rmult_le_compat_r; [left; apply p2_gt|exact ed].
    + rewrite p2_nonneg by apply Z.log2_nonneg. apply IZR_le. exact n1.
Qed.
Lemma last_bit_high n d : (0 < n)%Z -> (0 < d)%Z -> IZR d <= IZR n -> (-1074 < last_bit n d)%Z.
Proof.
  intros hn hd h. apply le_IZR in h. unfold last_bit. pose proof (Z.log2_le_mono _ _ h).
  destruct (if (0 <=? _)%Z then _ else _); lia.
Qed.

Lemma fl_pos_value n d : (0 < n)%Z -> (0 < d)%Z -> exists m, Q2R (fl_pos n d) = IZR m * p2 (last_bit n d) /\
  Rabs (IZR m - IZR n / IZR d / p2 (last_bit n d)) <= / 2 /\ (forall q, IZR n / IZR d / p2 (last_bit n d) = IZR q -> m = q).
Proof.
  intros hn hd. unfold fl_pos. set (e := last_bit n d). assert (rd : 0 < IZR d) by (apply IZR_lt; exact hd). pose proof (p2_gt e) as pe.
  destruct (0 <=? e)%Z eqn:c.
  - apply Z.leb_le in c. exists (div_even n (d * 2 ^ e)). assert (h2 : (0 < 2 ^ e)%Z) by (apply Z.pow_pos_nonneg; lia).
    assert (ex : IZR n / IZR (d * 2 ^ e) = IZR n / IZR d / p2 e) by (rewrite mult_IZR, <- p2_nonneg by exact c; field; lra).
    split; [|split].
    + unfold Q2R. cbn [inject_Z Qnum Qden]. rewrite mult_IZR, <- p2_nonneg by exact c. field.
    + rewrite <- ex. apply div_even_near. nia.
    + intros q hq. rewrite <- ex in hq. assert (i : n = (q * (d * 2 ^ e))%Z).
      { apply eq_IZR. rewrite mult_IZR, <- hq. field. apply IZR_neq. nia. }
      rewrite i. apply div_even_exact. nia.
  - apply Z.leb_gt in c. exists (div_even (n * 2 ^ (- e)) d). assert (h2 : (0 < 2 ^ (- e))%Z) by (apply Z.pow_pos_nonneg; lia).
    assert (ex : IZR (n * 2 ^ (- e)) / IZR d = IZR n / IZR d / p2 e) by (rewrite mult_IZR, <- p2_nonneg, p2_opp by lia; field; lra).
    split; [|split].
    + unfold Q2R. cbn [Qnum Qden]. f_equal. rewrite Z2Pos.id by exact h2. rewrite <- p2_nonneg, p2_opp by lia. apply Rinv_inv.
    + rewrite <- ex. apply div_even_near. exact hd.
    + intros q hq. rewrite <- ex in hq. assert (i : (n * 2 ^ (- e) = q * d)%Z).
      { apply eq_IZR. rewrite (mult_IZR q), <- hq. field. lra. }
      rewrite i. apply div_even_exact. exact hd.
Qed.

(** ** Exact results

    [grid g q]: q is a multiple of 2^-g. *)
Definition grid (g : Z) (q : Qc) : Prop := exists m, QcR q * p2 g = IZR m.

Lemma fl_pos_grid n d g m : (0 < n)%Z -> (0 < d)%Z -> (0 <= g <= 1073)%Z -> IZR n / IZR d * p2 g = IZR m -> (m <= 2 ^ 53)%Z ->
  Q2R (fl_pos n d) = IZR n / IZR d.
Proof.
  intros hn hd hg hm hb. destruct (fl_pos_value n d hn hd) as (k & hk & _ & he). rewrite hk. clear hk.
  destruct (last_bit_low n d hn hd) as [l1 l2]. set (e := last_bit n d) in *. pose proof (p2_gt e) as pe. pose proof (p2_gt g) as pg.
  assert (rd : 0 < IZR d) by (apply IZR_lt; exact hd). set (x := IZR n / IZR d) in *.
  assert (ex : exists q, x / p2 e = IZR q).
  { assert (xm : x = IZR m * p2 (- g)) by (rewrite p2_opp, <- hm; field; lra).
    destruct (Z_le_gt_dec (e + g) 0) as [c|c].
    - destruct (p2_int (- (e + g))%Z) as [j hj]; [lia|]. exists (m * j)%Z. rewrite mult_IZR, <- hj, xm.
      replace (- (e + g))%Z with (- e + - g)%Z by lia. rewrite p2_add, (p2_opp e). field. lra.
    - assert (l3 : IZR d * p2 (52 + e) <= IZR n) by (apply l2; lia).
      assert (l4 : p2 (52 + e) <= x) by (unfold x; apply Rmult_le_reg_r with (IZR d); [exact rd|]; unfold Rdiv; rewrite Rmult_assoc, Rinv_l by lra; lra).
      assert (l5 : p2 (52 + e + g) <= IZR m) by (rewrite <- hm, p2_add; apply Rmult_le_compat_r; lra).
      assert (l6 : IZR m <= p2 53) by (rewrite p2_nonneg by lia; apply IZR_le; exact hb).
      assert (eg : (e + g = 1)%Z).
      { assert (h : (52 + e + g < 54)%Z) by (apply p2_lt_inv; apply Rle_lt_trans with (p2 53); [lra|]; rewrite (p2_nonneg 53), (p2_nonneg 54) by lia; apply IZR_lt; reflexivity). lia. }
      assert (m53 : m = (2 ^ 53)%Z).
      { apply Z.le_antisymm; [exact hb|]. apply le_IZR. rewrite <- p2_nonneg by lia. replace 53%Z with (52 + e + g)%Z by lia. exact l5. }
      exists (2 ^ 52)%Z. rewrite xm, m53, <- !p2_nonneg by lia. unfold Rdiv. rewrite <- p2_opp, <- !p2_add. f_equal. lia. }
  destruct ex as [q hq]. rewrite (he q hq), <- hq. field. lra.
Qed.
Lemma Qnum_pos (q : Qc) : (0 < Qnum (this q))%Z <-> 0 < QcR q.
Proof.
  unfold QcR, Q2R. assert (h : 0 < / IZR (Zpos (Qden (this q)))) by (apply Rinv_0_lt_compat, IZR_lt; reflexivity). split; intro c.
  - apply Rmult_lt_0_compat; [apply IZR_lt; exact c|exact h].
  - apply lt_IZR. nra.
Qed.
Lemma fl_cases (q : Qc) : (q = qc 0 /\ fl q = qc 0) \/
  (0 < QcR q /\ QcR (fl q) = Q2R (fl_pos (Qnum (this q)) (Zpos (Qden (this q)))) /\ QcR q = IZR (Qnum (this q)) / IZR (Zpos (Qden (this q))) /\ (0 < Qnum (this q))%Z) \/
  (QcR q < 0 /\ QcR (fl q) = - Q2R (fl_pos (- Qnum (this q)) (Zpos (Qden (this q)))) /\ - QcR q = IZR (- Qnum (this q)) / IZR (Zpos (Qden (this q))) /\ (0 < - Qnum (this q))%Z).
Proof.
  assert (v : QcR q = IZR (Qnum (this q)) / IZR (Zpos (Qden (this q)))) by reflexivity.
  assert (h : 0 < / IZR (Zpos (Qden (this q)))) by (apply Rinv_0_lt_compat, IZR_lt; reflexivity).
  unfold fl. destruct (Qnum (this q) =? 0)%Z eqn:e0.
  - left. split; [|reflexivity]. apply QcR_inj. rewrite QcR_qc, v. apply Z.eqb_eq in e0. rewrite e0. unfold Rdiv. lra.
  - apply Z.eqb_neq in e0. right. destruct (0 <? Qnum (this q))%Z eqn:e1.
    + left. apply Z.ltb_lt in e1. split; [apply Qnum_pos; exact e1|]. rewrite QcR_Q2Qc. auto.
    + right. apply Z.ltb_ge in e1. assert (hz : (Qnum (this q) < 0)%Z) by lia. split; [|split; [|split; [|lia]]].
      * rewrite v. unfold Rdiv. apply IZR_lt in hz. nra.
      * rewrite QcR_Q2Qc, Q2R_opp. reflexivity.
      * rewrite opp_IZR, v. unfold Rdiv. lra.
Qed.
Lemma fl_grid g q : (0 <= g <= 1073)%Z -> grid g q -> Rabs (QcR q) * p2 g <= p2 53 -> fl q = q.
Proof.
  intros hg [m hm] hb. assert (h53 : p2 53 = IZR (2 ^ 53)) by (apply p2_nonneg; lia). destruct (fl_cases q) as [[-> e]|[(hp & e & v & hn)|(hp & e & v & hn)]].
  - exact e.
  - apply QcR_inj. rewrite e, v. apply (fl_pos_grid _ _ g m); [exact hn|reflexivity|exact hg|rewrite <- v; exact hm|].
    apply le_IZR. rewrite <- h53, <- hm. rewrite Rabs_pos_eq in hb by lra. exact hb.
  - apply QcR_inj. rewrite e. rewrite (fl_pos_grid _ _ g (- m)); [lra|exact hn|reflexivity|exact hg| |].
    + rewrite <- v, opp_IZR, <- hm. ring.
    + apply le_IZR. rewrite <- h53, opp_IZR, <- hm. rewrite Rabs_left in hb by lra. lra.
Qed.
(** Rounding moves a number of size at least 1 by at most one part in 2^53. *)
Lemma fl_near q : 1 <= QcR q -> Rabs (QcR (fl q) - QcR q) <= QcR q * / 2 ^ 53.
Proof.
  intro h. destruct (fl_cases q) as [[-> e]|[(hp & e & v & hn)|(hp & _)]]; [rewrite QcR_qc in h; lra| |lra].
  set (n := Qnum (this q)) in *. set (d := Zpos (Qden (this q))) in *. assert (hd : (0 < d)%Z) by reflexivity. assert (rd : 0 < IZR d) by (apply IZR_lt; exact hd).
  destruct (fl_pos_value n d hn hd) as (m & hm & ha & _). rewrite e, hm. clear e hm.
  assert (dn : IZR d <= IZR n) by (rewrite v in h; apply Rmult_le_compat_r with (r := IZR d) in h; [|lra]; unfold Rdiv in h; rewrite Rmult_assoc, Rinv_l in h by lra; lra).
  pose proof (proj2 (last_bit_low n d hn hd) (last_bit_high n d hn hd dn)) as l. rewrite <- v in ha. set (x := QcR q) in *. set (k := last_bit n d) in *.
  pose proof (p2_gt k) as pk. replace (IZR m * p2 k - x) with ((IZR m - x / p2 k) * p2 k) by (field; lra). rewrite Rabs_mult, (Rabs_pos_eq (p2 k)) by lra.
  assert (lx : p2 (52 + k) <= x) by (rewrite v; apply Rmult_le_reg_r with (IZR d); [exact rd|]; unfold Rdiv; rewrite Rmult_assoc, Rinv_l by lra; lra).
  rewrite p2_add in lx. change (p2 52) with (2 ^ 52) in lx. apply Rle_trans with (/ 2 * p2 k); [apply Rmult_le_compat_r; lra|].
  assert (e53 : 2 ^ 53 = 2 * 2 ^ 52) by reflexivity. rewrite e53, Rinv_mult. clear e53. set (t := 2 ^ 52) in *. assert (0 < t) by (apply pow_lt; lra).
  assert (p2 k <= x * / t).
  { apply Rmult_le_reg_l with t; [assumption|]. replace (t * (x * / t)) with x by (field; lra). exact lx. }
  replace (x * (/ 2 * / t)) with (/ 2 * (x * / t)) by ring. apply Rmult_le_compat_l; lra.
Qed.
