(** * PrintFacts: the text of a float is the shortest that is read back *)
From Coq Require Import String Ascii List ZArith QArith Qcanon Bool Reals Qreals Lia Lra Arith.
From Coq Require Import Floats.SpecFloat QArith.Qpower.
From Verif Require Import Py Num NumFacts UnitsStruct Units Rounding RoundSpec RangeSpec FloatExp FloatRound B64Facts B64Round TextSpec TextFacts ShowFacts Print PrintSpec.
Import ListNotations.
Local Open Scope R_scope.
Local Notation p2 := (powerRZ 2).
Local Notation p10 := (powerRZ 10).

(** ** Powers of ten *)
Lemma p10_add a b : p10 (a + b) = p10 a * p10 b.
Proof. apply powerRZ_add. lra. Qed.
Lemma p10_gt k : 0 < p10 k.
Proof. apply powerRZ_lt. lra. Qed.
Lemma p10_opp k : p10 (- k) = / p10 k.
Proof. apply powerRZ_neg'. Qed.
Lemma p10_nonneg k : (0 <= k)%Z -> p10 k = IZR (10 ^ k).
Proof. intro h. rewrite <- (Z2Nat.id k h). rewrite <- pow_powerRZ. rewrite pow_IZR. reflexivity. Qed.
Lemma p10_1 : p10 1 = 10.
Proof. change (p10 1) with (10 ^ 1). ring. Qed.
Lemma p10_0 : p10 0 = 1.
Proof. reflexivity. Qed.
Lemma p10_le a b : (a <= b)%Z -> p10 a <= p10 b.
Proof.
  intro h. replace b with (a + (b - a))%Z by lia. rewrite p10_add. rewrite <- (Rmult_1_r (p10 a)) at 1. apply Rmult_le_compat_l; [left; apply p10_gt|].
  rewrite p10_nonneg by lia. apply IZR_le. assert (0 < 10 ^ (b - a))%Z by (apply Z.pow_pos_nonneg; lia). lia.
Qed.
Lemma p10_lt_inv a b : p10 a < p10 b -> (a < b)%Z.
Proof. intro h. destruct (Z_lt_le_dec a b) as [|g]; [assumption|]. apply p10_le in g. lra. Qed.

(** ** Fractions *)
Lemma scaled_val m e j : let '(a, b) := scaled m e j in (0 < a /\ 0 < b)%Z /\ IZR a / IZR b = IZR (Zpos m) * p2 e * p10 j.
Proof.
  unfold scaled. assert (P : forall k, (0 < 2 ^ Z.max k 0)%Z) by (intro; apply Z.pow_pos_nonneg; lia). assert (T : forall k, (0 < 10 ^ Z.max k 0)%Z) by (intro; apply Z.pow_pos_nonneg; lia).
  pose proof (P e). pose proof (P (- e)%Z). pose proof (T j). pose proof (T (- j)%Z). split; [split; [repeat apply Z.mul_pos_pos; lia|apply Z.mul_pos_pos; lia]|].
  rewrite !mult_IZR. rewrite <- !p2_nonneg, <- !p10_nonneg by lia.
  pose proof (p2_gt (Z.max e 0)). pose proof (p2_gt (Z.max (- e) 0)). pose proof (p10_gt (Z.max j 0)). pose proof (p10_gt (Z.max (- j) 0)).
  replace (p2 e) with (p2 (Z.max e 0) * / p2 (Z.max (- e) 0)) by (rewrite <- p2_opp, <- p2_add; f_equal; lia).
  replace (p10 j) with (p10 (Z.max j 0) * / p10 (Z.max (- j) 0)) by (rewrite <- p10_opp, <- p10_add; f_equal; lia).
  field. split; lra.
Qed.
Lemma quo_bounds a b : (0 < b)%Z -> IZR (a / b) <= IZR a / IZR b < IZR (a / b) + 1.
Proof.
  intro hb. assert (pb : 0 < IZR b) by (apply IZR_lt, hb). pose proof (Z.div_mod a b ltac:(lia)) as d. pose proof (Z.mod_pos_bound a b hb) as r.
  assert (e : IZR a / IZR b = IZR (a / b) + IZR (a mod b) / IZR b) by (rewrite d at 1; rewrite plus_IZR, mult_IZR; field; lra).
  assert (0 <= IZR (a mod b)) by (apply IZR_le; lia). assert (IZR (a mod b) < IZR b) by (apply IZR_lt; lia).
  assert (0 <= IZR (a mod b) / IZR b) by (apply Rmult_le_pos; [lra|left; apply Rinv_0_lt_compat; lra]).
  assert (IZR (a mod b) / IZR b < 1) by (apply (Rmult_lt_reg_r (IZR b)); [lra|]; unfold Rdiv; rewrite Rmult_assoc, Rinv_l by lra; lra). lra.
Qed.
Lemma ndigits_ok z : (0 < z)%Z -> (0 < ndigits z /\ 10 ^ (ndigits z - 1) <= z < 10 ^ ndigits z)%Z.
Proof.
  intro h. unfold ndigits. destruct (show_nonneg_ok z ltac:(lia)) as (l & h1 & h2 & h3 & h4 & h5). rewrite h3, digits_text_len. pose proof (digits_val_lt l h1) as h6. rewrite h4 in h6.
  assert (0 < List.length l)%nat by (destruct l; [congruence|cbn; lia]). split; [lia|]. split; [|exact h6].
  destruct h5 as [h5|h5]; [rewrite h5; cbn; lia|exact h5].
Qed.

(** ** The decimal point *)
Section Digits.
Variables (m : BinNums.positive) (e : Z).
Let x := S754_finite false m e.
Hypothesis hx : finite64 x.
Let v := SFR x.
Let K := decpt m e.
Lemma val_x : v = IZR (Zpos m) * p2 e.
Proof. unfold v, x. cbn [SFR]. ring. Qed.
Lemma val_pos : 0 < v.
Proof. rewrite val_x. apply Rmult_lt_0_compat; [apply IZR_lt; lia|apply p2_gt]. Qed.
Lemma decpt_ok : p10 (K - 1) <= v < p10 K.
Proof.
  unfold K, decpt. pose proof (scaled_val m e 330) as s. destruct (scaled m e 330) as (a, b). destruct s as ((pa & pb) & s). rewrite <- val_x in s.
  pose proof (quo_bounds a b pb) as q. rewrite s in q.
  assert (one : (0 < a / b)%Z).
  { assert (1 < IZR (a / b) + 1); [|assert (0 < IZR (a / b)) by lra; apply lt_IZR; assumption]. apply Rle_lt_trans with (2 := proj2 q).
    destruct (bounded_cases _ _ hx) as (_ & hb & _). apply Rle_trans with (p2 (-1074) * p10 330).
    - replace (p2 (-1074)) with (/ p2 1074) by (symmetry; exact (p2_opp 1074)). rewrite p2_nonneg, p10_nonneg by lia. apply (Rmult_le_reg_l (IZR (2 ^ 1074))); [apply IZR_lt; reflexivity|]. rewrite <- Rmult_assoc, Rinv_r, Rmult_1_l, Rmult_1_r by (apply not_0_IZR; discriminate).
      apply IZR_le. apply Z.leb_le. vm_compute. reflexivity.
    - apply Rmult_le_compat_r; [left; apply p10_gt|]. rewrite val_x. apply Rle_trans with (p2 e); [apply p2_le; lia|]. rewrite <- (Rmult_1_l (p2 e)) at 1. apply Rmult_le_compat_r; [left; apply p2_gt|]. apply IZR_le. lia. }
  destruct (ndigits_ok _ one) as (n0 & n1 & n2). set (n := ndigits (a / b)) in *. pose proof (p10_gt 330) as pp.
  split; apply (Rmult_le_reg_r (p10 330)) || apply (Rmult_lt_reg_r (p10 330)); try exact pp; rewrite <- p10_add.
  - replace (n - 330 - 1 + 330)%Z with (n - 1)%Z by lia. apply Rle_trans with (2 := proj1 q). rewrite p10_nonneg by lia. apply IZR_le. exact n1.
  - replace (n - 330 + 330)%Z with n by lia. apply Rlt_le_trans with (1 := proj2 q). rewrite p10_nonneg by lia. rewrite <- plus_IZR. apply IZR_le. lia.
Qed.

(** ** Candidates of [n] digits *)
Lemma dec_float_ok z k : (0 < z)%Z -> same_float (dec_float z k) x = true <-> nearest64 (IZR z * p10 k) x.
Proof.
  intro hz. destruct z as [|z|z]; try lia.
  assert (sf : forall y, same_float y x = true <-> y = x).
  { intro y. unfold same_float, x. destruct y as [s|s| |s n f]; try (split; discriminate). split.
    - intro h. apply andb_prop in h. destruct h as (h & h3). apply andb_prop in h. destruct h as (h1 & h2). apply eqb_prop in h1. apply Pos.eqb_eq in h2. apply Z.eqb_eq in h3. congruence.
    - intro h. injection h as -> -> ->. rewrite eqb_reflx, Pos.eqb_refl, Z.eqb_refl. reflexivity. }
  rewrite sf. unfold dec_float. destruct (Z.leb 0 k) eqn:hk.
  - apply Z.leb_le in hk. assert (0 < 10 ^ k)%Z by (apply Z.pow_pos_nonneg; lia).
    destruct (Zpos z * 10 ^ k)%Z as [|n|n] eqn:en; try lia. rewrite lit_iff; [|exact hx|exact val_pos].
    replace (IZR (Zpos n) / 1) with (IZR (Z.pos z) * p10 k); [reflexivity|]. rewrite <- en, mult_IZR, <- p10_nonneg by exact hk. field.
  - apply Z.leb_gt in hk. assert (0 < 10 ^ (- k))%Z by (apply Z.pow_pos_nonneg; lia). rewrite lit_iff; [|exact hx|exact val_pos].
    rewrite Z2Pos.id by assumption. rewrite <- p10_nonneg by lia. rewrite p10_opp. unfold Rdiv. rewrite Rinv_inv. reflexivity.
Qed.
Section Pick.
Variable n : Z.
Hypothesis hn : (1 <= n)%Z.
Let u := p10 (K - n).
Definition low : Z := let '(a, b) := scaled m e (n - K) in (a / b)%Z.
Lemma low_ok : IZR low * u <= v < (IZR low + 1) * u /\ (10 ^ (n - 1) <= low < 10 ^ n)%Z.
Proof.
  unfold low. pose proof (scaled_val m e (n - K)) as s. destruct (scaled m e (n - K)) as (a, b). destruct s as ((pa & pb) & s). rewrite <- val_x in s.
  pose proof (quo_bounds a b pb) as q. rewrite s in q. pose proof (p10_gt (K - n)) as pu.
  assert (uu : p10 (n - K) * u = 1) by (unfold u; rewrite <- p10_add; replace (n - K + (K - n))%Z with 0%Z by lia; reflexivity).
  assert (vv : v = v * p10 (n - K) * u) by (rewrite Rmult_assoc, uu; ring). split; [split|].
  - rewrite vv. apply Rmult_le_compat_r; [unfold u; lra|apply q].
  - rewrite vv. apply Rmult_lt_compat_r; [unfold u; lra|apply q].
  - destruct decpt_ok as (d1 & d2). pose proof (p10_gt (n - K)) as pn. split.
    + assert (g : p10 (n - 1) < IZR (a / b) + 1).
      { apply Rle_lt_trans with (2 := proj2 q). replace (n - 1)%Z with ((K - 1) + (n - K))%Z by lia. rewrite p10_add. apply Rmult_le_compat_r; lra. }
      rewrite p10_nonneg, <- plus_IZR in g by lia. apply lt_IZR in g. lia.
    + apply lt_IZR. apply Rle_lt_trans with (1 := proj1 q). rewrite <- p10_nonneg by lia. replace n with (K + (n - K))%Z at 2 by lia. rewrite p10_add. apply Rmult_lt_compat_r; lra.
Qed.
Definition reads (z : Z) : Prop := nearest64 (IZR z * u) x.
Lemma pick_ok :
  match pick m e K n with
  | Some z => reads z /\ (z = low \/ z = low + 1)%Z /\ (forall w, w = low \/ w = (low + 1)%Z -> reads w -> Rabs (IZR z * u - v) <= Rabs (IZR w * u - v)) /\
      (forall w, w = low \/ w = (low + 1)%Z -> reads w -> w <> z -> Rabs (IZR z * u - v) = Rabs (IZR w * u - v) -> Z.even z = true)
  | None => ~ reads low /\ ~ reads (low + 1)
  end.
Proof.
  destruct low_ok as (lo & l1 & l2). pose proof (p10_gt (K - n)) as pu. fold u in pu.
  assert (l0 : (0 < low)%Z) by (assert (0 < 10 ^ (n - 1))%Z by (apply Z.pow_pos_nonneg; lia); lia).
  assert (near : forall a b, scaled m e (n - K) = (a, b) ->
     match (2 * (a mod b) ?= b)%Z with
     | Lt => Rabs (IZR low * u - v) < Rabs (IZR (low + 1) * u - v)
     | Gt => Rabs (IZR (low + 1) * u - v) < Rabs (IZR low * u - v)
     | Eq => Rabs (IZR low * u - v) = Rabs (IZR (low + 1) * u - v)
     end).
  { intros a b ab. pose proof (scaled_val m e (n - K)) as s. rewrite ab in s. destruct s as ((pa & pb) & s). rewrite <- val_x in s.
    assert (uu : p10 (n - K) * u = 1) by (unfold u; rewrite <- p10_add; replace (n - K + (K - n))%Z with 0%Z by lia; reflexivity).
    assert (vv : v = IZR a / IZR b * u) by (rewrite s, Rmult_assoc, uu; ring).
    assert (el : low = (a / b)%Z) by (unfold low; rewrite ab; reflexivity).
    assert (pbR : 0 < IZR b) by (apply IZR_lt, pb). pose proof (Z.div_mod a b ltac:(lia)) as d. pose proof (Z.mod_pos_bound a b pb) as r.
    assert (ea : IZR a / IZR b = IZR low + IZR (a mod b) / IZR b) by (rewrite el; rewrite d at 1; rewrite plus_IZR, mult_IZR; field; lra).
    set (t := IZR (a mod b) / IZR b) in *. assert (t0 : t * IZR b = IZR (a mod b)) by (unfold t; field; lra).
    assert (e1 : IZR low * u - v = - (t * u)) by (rewrite vv, ea; ring). assert (e2 : IZR (low + 1) * u - v = (1 - t) * u) by (rewrite vv, ea, plus_IZR; ring).
    assert (tp : 0 <= t) by (apply Rmult_le_pos; [apply IZR_le; lia|left; apply Rinv_0_lt_compat; exact pbR]).
    assert (t1 : t < 1) by (apply (Rmult_lt_reg_r (IZR b)); [exact pbR|]; rewrite t0, Rmult_1_l; apply IZR_lt; lia).
    rewrite e1, e2, Rabs_Ropp. rewrite !Rabs_pos_eq by (apply Rmult_le_pos; lra).
    destruct (Z.compare_spec (2 * (a mod b)) b) as [c|c|c].
    - assert (t = / 2) by (apply (Rmult_eq_reg_r (IZR b)); [|lra]; rewrite t0; rewrite <- c at 2; rewrite mult_IZR; field). subst t. rewrite H. lra.
    - assert (t < / 2) by (apply (Rmult_lt_reg_r (IZR b)); [exact pbR|]; rewrite t0; apply IZR_lt in c; rewrite mult_IZR in c; lra). apply Rmult_lt_compat_r; lra.
    - assert (/ 2 < t) by (apply (Rmult_lt_reg_r (IZR b)); [exact pbR|]; rewrite t0; apply IZR_lt in c; rewrite mult_IZR in c; lra). apply Rmult_lt_compat_r; lra. }
  unfold pick. destruct (scaled m e (n - K)) as (a, b) eqn:ab. specialize (near a b eq_refl).
  assert (el : (a / b)%Z = low) by (unfold low; rewrite ab; reflexivity). rewrite el. clear el.
  pose proof (dec_float_ok low (K - n) l0) as r1. pose proof (dec_float_ok (low + 1) (K - n) ltac:(lia)) as r2. fold x. fold u in r1, r2.
  assert (fin : forall y z, (y = low /\ z = low + 1 \/ y = low + 1 /\ z = low)%Z -> Rabs (IZR y * u - v) <= Rabs (IZR z * u - v) -> (Rabs (IZR y * u - v) = Rabs (IZR z * u - v) -> Z.even y = true) ->
     match (if same_float (dec_float y (K - n)) x then Some y else if same_float (dec_float z (K - n)) x then Some z else None) with
     | Some z => reads z /\ (z = low \/ z = low + 1)%Z /\ (forall w, w = low \/ w = (low + 1)%Z -> reads w -> Rabs (IZR z * u - v) <= Rabs (IZR w * u - v)) /\
      (forall w, w = low \/ w = (low + 1)%Z -> reads w -> w <> z -> Rabs (IZR z * u - v) = Rabs (IZR w * u - v) -> Z.even z = true)
     | None => ~ reads low /\ ~ reads (low + 1)
     end).
  { intros y z yz le ev. assert (ry : same_float (dec_float y (K - n)) x = true <-> reads y) by (unfold reads; destruct yz as [(-> & ->)|(-> & ->)]; assumption).
    assert (rz : same_float (dec_float z (K - n)) x = true <-> reads z) by (unfold reads; destruct yz as [(-> & ->)|(-> & ->)]; assumption).
    destruct (same_float (dec_float y (K - n)) x).
    - split; [apply ry; reflexivity|]. split; [lia|]. split; [intros w hw _; assert (w = y \/ w = z) as [-> | ->] by lia; lra|]. intros w hw _ ne eq. assert (w = z) by lia. subst w. apply ev, eq.
    - assert (ny : ~ reads y) by (intro c; apply ry in c; discriminate). destruct (same_float (dec_float z (K - n)) x).
      + split; [apply rz; reflexivity|]. split; [lia|]. split; [intros w hw rw; assert (w = y \/ w = z) as [-> | ->] by lia; [contradiction|lra]|]. intros w hw rw ne _. exfalso. assert (w = y) by lia. subst w. contradiction.
      + assert (nz : ~ reads z) by (intro c; apply rz in c; discriminate). destruct yz as [(-> & ->)|(-> & ->)]; split; assumption. }
  destruct (2 * (a mod b) ?= b)%Z; [destruct (Z.odd low) eqn:od| |]; apply fin; try lia; try lra; intros _.
  - rewrite Z.add_1_r, Z.even_succ. exact od.
  - rewrite <- Z.negb_odd, od. reflexivity.
Qed.
Lemma side c k : (0 < c < 10 ^ n)%Z -> let q := IZR c * p10 k in q <= IZR low * u \/ IZR (low + 1) * u <= q.
Proof.
  intros hc q. destruct low_ok as ((lo & hi) & l1 & l2). pose proof (p10_gt (K - n)) as pu. fold u in pu.
  destruct (Rle_lt_dec q (IZR low * u)) as [|g]; [left; assumption|right]. destruct (Rle_lt_dec (IZR (low + 1) * u) q) as [|g2]; [assumption|exfalso].
    assert (hk : (K - n <= k)%Z).
    { assert (p : p10 (K - 1) < p10 (n + k)); [|apply p10_lt_inv in p; lia]. apply Rle_lt_trans with (IZR low * u).
      - replace (K - 1)%Z with (n - 1 + (K - n))%Z by lia. rewrite p10_add. apply Rmult_le_compat_r; [unfold u in pu; lra|]. rewrite p10_nonneg by lia. apply IZR_le, l1.
      - apply Rlt_trans with (1 := g). unfold q. rewrite p10_add. apply Rmult_lt_compat_r; [apply p10_gt|]. rewrite p10_nonneg by lia. apply IZR_lt. lia. }
    assert (qm : q = IZR (c * 10 ^ (k - (K - n))) * u).
    { unfold q, u. rewrite mult_IZR, <- p10_nonneg by lia. rewrite Rmult_assoc, <- p10_add. do 2 f_equal. lia. }
    rewrite qm in g, g2. apply Rmult_lt_reg_r in g; [|exact pu]. apply Rmult_lt_reg_r in g2; [|exact pu]. apply lt_IZR in g, g2. lia.
Qed.
Lemma self : nearest64 v x.
Proof. unfold v, x. apply nearest_close; [exact hx| |intros _]; replace (SFR _ - SFR _) with 0 by ring; rewrite Rabs_R0; pose proof (p2_gt e); lra. Qed.
(** A decimal of at most [n] digits read as [x] has a candidate between it and [x]. *)
Lemma cover c k : (0 < c < 10 ^ n)%Z -> nearest64 (IZR c * p10 k) x ->
  exists w, (w = low \/ w = low + 1)%Z /\ reads w /\ Rabs (IZR w * u - v) <= Rabs (IZR c * p10 k - v).
Proof.
  intros hc hr. destruct low_ok as ((lo & hi) & l1 & l2). pose proof (p10_gt (K - n)) as pu. fold u in pu. set (q := IZR c * p10 k) in *.
  assert (self : nearest64 v x).
  { unfold v, x. apply nearest_close; [exact hx| |intros _]; replace (SFR _ - SFR _) with 0 by ring; rewrite Rabs_R0; pose proof (p2_gt e); lra. }
  pose proof (side c k hc) as side. cbv zeta in side. fold q in side.
  rewrite plus_IZR in side. destruct side as [sd|sd].
  - exists low. split; [left; reflexivity|]. split; [apply (nearest_between q v); [exact hr|exact self|lra]|]. rewrite (Rabs_left1 (IZR low * u - v)), (Rabs_left1 (q - v)) by lra. lra.
  - exists (low + 1)%Z. split; [right; reflexivity|]. unfold reads. rewrite plus_IZR. split; [apply (nearest_between v q); [exact self|exact hr|lra]|]. rewrite (Rabs_pos_eq ((IZR low + 1) * u - v)), (Rabs_pos_eq (q - v)) by lra. lra.
Qed.
(** Another decimal as near as the one chosen: half a unit of the last digit, which is even. *)
Lemma tie c k z : pick m e K n = Some z -> (0 < c < 10 ^ n)%Z -> nearest64 (IZR c * p10 k) x -> Rabs (IZR z * u - v) = Rabs (IZR c * p10 k - v) -> IZR c * p10 k <> IZR z * u ->
  Z.even z = true /\ Rabs (IZR c * p10 k - IZR z * u) = u.
Proof.
  intros hp hc hr eq ne. pose proof pick_ok as po. rewrite hp in po. destruct po as (rz & zz & near & even). destruct low_ok as ((lo & hi) & _). pose proof (p10_gt (K - n)) as pu. fold u in pu.
  pose proof (side c k hc) as sd. cbv zeta in sd. set (q := IZR c * p10 k) in *. rewrite plus_IZR in sd. pose proof self as sf.
  assert (other : q - v = v - IZR z * u). { unfold Rabs in eq. destruct (Rcase_abs _), (Rcase_abs _); try lra; exfalso; apply ne; lra. }
  destruct zz as [z0|z0].
  - subst z. destruct sd as [sd|sd]; [exfalso; apply ne; lra|]. assert (r1 : reads (low + 1)) by (unfold reads; rewrite plus_IZR; apply (nearest_between v q); [exact sf|exact hr|lra]).
    specialize (near (low + 1)%Z (or_intror eq_refl) r1). assert (d : q = (IZR low + 1) * u). { rewrite plus_IZR in near. rewrite Rabs_left1, Rabs_pos_eq in near by lra. lra. }
    split; [|rewrite d; rewrite Rabs_pos_eq; lra]. apply (even (low + 1)%Z); [right; reflexivity|exact r1|lia|]. rewrite plus_IZR, <- d. exact eq.
  - subst z. rewrite plus_IZR in *. destruct sd as [sd|sd]; [|exfalso; apply ne; lra]. assert (r1 : reads low) by (unfold reads; apply (nearest_between q v); [exact hr|exact sf|lra]).
    specialize (near low (or_introl eq_refl) r1). assert (d : q = IZR low * u). { rewrite Rabs_pos_eq, Rabs_left1 in near by lra. lra. }
    split; [|rewrite d; rewrite Rabs_left1; lra]. apply (even low); [left; reflexivity|exact r1|lia|]. rewrite <- d. rewrite ?plus_IZR in *. exact eq.
Qed.
End Pick.
(** Seventeen digits are enough. *)
Lemma seventeen : pick m e K 17 <> None.
Proof.
  intro h. pose proof (pick_ok 17 ltac:(lia)) as p. rewrite h in p. destruct p as (r1 & r2). destruct (low_ok 17 ltac:(lia)) as ((lo & hi) & _).
  set (u := p10 (K - 17)) in *. set (q := low 17) in *. destruct (bounded_cases _ _ hx) as (a1 & a2 & a3). destruct decpt_ok as (d1 & _). pose proof (p2_gt e) as pe.
  assert (ub : u * IZR (10 ^ 16) <= v).
  { rewrite <- p10_nonneg by lia. unfold u. rewrite <- p10_add. replace (K - 17 + 16)%Z with (K - 1)%Z by lia. exact d1. }
  assert (T : forall w, Rabs (IZR w * u - v) <= u / 2 -> nearest64 (IZR w * u) x).
  { intros w hw. apply nearest_close; [exact hx| |]; fold x; fold v.
    - apply Rle_lt_trans with (1 := hw). apply (Rmult_lt_reg_r (IZR (10 ^ 16))); [apply IZR_lt; reflexivity|]. apply Rle_lt_trans with (v / 2); [lra|]. rewrite val_x.
      assert (IZR (Zpos m) < IZR (2 ^ 53)) by (apply IZR_lt, a1). assert (IZR (2 ^ 53) < IZR (10 ^ 16)) by (apply IZR_lt; reflexivity).
      assert (IZR (Zpos m) * p2 e < IZR (10 ^ 16) * p2 e) by (apply Rmult_lt_compat_r; lra). lra.
    - intro m52. apply Rle_lt_trans with (1 := hw). apply (Rmult_lt_reg_r (IZR (10 ^ 16))); [apply IZR_lt; reflexivity|]. apply Rle_lt_trans with (v / 2); [lra|]. rewrite val_x, m52.
      assert (2 * IZR (2 ^ 52) < IZR (10 ^ 16)) by (rewrite <- mult_IZR; apply IZR_lt; reflexivity). assert (2 * IZR (2 ^ 52) * p2 e < IZR (10 ^ 16) * p2 e) by (apply Rmult_lt_compat_r; lra). lra. }
  destruct (Rle_lt_dec (v - IZR q * u) (u / 2)) as [g|g].
  - apply r1. apply T. rewrite Rabs_left1; lra.
  - apply r2. apply T. rewrite plus_IZR. rewrite Rabs_pos_eq; lra.
Qed.
Lemma shortest_ok f : forall n, (1 <= n)%Z -> (n <= 17 < n + Z.of_nat f)%Z -> exists z j, shortest f m e K n = Ok (z, K - j)%Z /\ (n <= j <= 17)%Z /\ pick m e K j = Some z /\ (forall i, (n <= i < j)%Z -> pick m e K i = None).
Proof.
  induction f as [|f IH]; intros n h1 h2; [lia|]. cbn [shortest]. destruct (pick m e K n) as [z|] eqn:p.
  - exists z, n. split; [reflexivity|]. split; [lia|]. split; [exact p|]. intros i hi. lia.
  - destruct (Z.eq_dec n 17) as [->|ne]; [exfalso; exact (seventeen p)|]. destruct (IH (n + 1)%Z ltac:(lia) ltac:(lia)) as (z & j & e1 & e2 & e3 & e4).
    exists z, j. split; [exact e1|]. split; [lia|]. split; [exact e3|]. intros i hi. destruct (Z.eq_dec i n) as [->|]; [exact p|apply e4; lia].
Qed.
End Digits.

(** ** Trailing zeros *)
Lemma trim_ok f : forall z k, (0 < z < 10 ^ (Z.of_nat f + 1))%Z -> let '(z', k') := trim f z k in
  (0 < z' <= z /\ z' mod 10 <> 0 /\ k <= k' /\ z = z' * 10 ^ (k' - k))%Z.
Proof.
  induction f as [|f IH]; intros z k h; cbn [trim].
  - rewrite Z.mod_small by (cbn in h; lia). replace (k - k)%Z with 0%Z by lia. rewrite Z.pow_0_r. lia.
  - destruct (Z.eqb (z mod 10) 0) eqn:q.
    + apply Z.eqb_eq in q. assert (z10 : z = (z / 10 * 10)%Z) by (rewrite (Z.div_mod z 10) at 1 by lia; lia).
      assert (hz : (0 < z / 10 < 10 ^ (Z.of_nat f + 1))%Z).
      { split; [lia|]. apply Z.div_lt_upper_bound; [lia|]. rewrite <- Z.pow_succ_r by lia. replace (Z.succ (Z.of_nat f + 1)) with (Z.of_nat (S f) + 1)%Z by lia. apply h. }
      specialize (IH (z / 10)%Z (k + 1)%Z hz). destruct (trim f (z / 10) (k + 1)) as (z', k'). destruct IH as (i1 & i2 & i3 & i4).
      split; [lia|]. split; [exact i2|]. split; [lia|]. rewrite z10, i4. replace (k' - k)%Z with (k' - (k + 1) + 1)%Z by lia. rewrite (Z.pow_add_r 10 _ 1) by lia. ring.
    + apply Z.eqb_neq in q. replace (k - k)%Z with 0%Z by lia. rewrite Z.pow_0_r. lia.
Qed.

(** ** Digits of a text *)
Lemma drop0_suffix l : exists n, l = zeros n ++ drop0 l.
Proof. induction l as [|[|d] l (n & IH)]; [exists O; reflexivity| |exists O; reflexivity]. exists (S n). cbn. f_equal. exact IH. Qed.
Lemma rev_zeros n : rev (zeros n) = zeros n.
Proof.
  assert (s : forall n, zeros n ++ [O] = O :: zeros n) by (intro k; induction k; cbn; congruence).
  induction n as [|n IH]; [reflexivity|]. cbn [zeros rev]. rewrite IH. apply s.
Qed.
Lemma digits_val_zeros l n : digits_val (l ++ zeros n) = (digits_val l * 10 ^ Z.of_nat n)%Z.
Proof.
  change (digits_val (l ++ zeros n)) with (dval_from 0 (l ++ zeros n)). rewrite dval_from_app, dval_from_val, zeros_len. change (dval_from 0 l) with (digits_val l).
  replace (digits_val (zeros n)) with 0%Z; [lia|]. rewrite <- (app_nil_r (zeros n)), zeros_val. reflexivity.
Qed.
(** The value of a list of digits, from the digits without zeros at either end. *)
Lemma core_ok l : digits_ok l -> exists c t, (0 <= c < 10 ^ Z.of_nat (List.length (drop0 (rev (drop0 l)))))%Z /\ digits_val l = (c * 10 ^ Z.of_nat t)%Z.
Proof.
  intro h. destruct (drop0_suffix l) as (n & e1). destruct (drop0_suffix (rev (drop0 l))) as (t & e2). set (r := drop0 (rev (drop0 l))) in *.
  assert (e3 : drop0 l = rev r ++ zeros t) by (rewrite <- (rev_involutive (drop0 l)), e2, rev_app_distr, rev_zeros; reflexivity).
  assert (ok : digits_ok (rev r)) by (rewrite e1, e3 in h; apply digits_ok_app in h; destruct h as (_ & h); apply digits_ok_app in h; apply h).
  exists (digits_val (rev r)), t. split.
  - split; [apply digits_val_nonneg|]. rewrite <- (rev_length r). apply digits_val_lt, ok.
  - rewrite e1, zeros_val, e3. apply digits_val_zeros.
Qed.
(** Digits without zeros at either end keep them all. *)
Lemma core_len l n k : (forall d r, l = d :: r -> d <> O) -> (forall d r, rev l = d :: r -> d <> O) -> List.length (drop0 (rev (drop0 (zeros n ++ l ++ zeros k)))) = List.length l.
Proof.
  intros h1 h2. assert (dz : forall n r, drop0 (zeros n ++ r) = drop0 r) by (intros j r; induction j; [reflexivity|cbn; assumption]).
  rewrite dz. destruct l as [|d l].
  - cbn [List.app]. rewrite <- (app_nil_r (zeros k)), dz. reflexivity.
  - assert (d <> O) by (apply (h1 d l); reflexivity). replace (drop0 ((d :: l) ++ zeros k)) with ((d :: l) ++ zeros k) by (destruct d; [contradiction|reflexivity]).
    rewrite rev_app_distr, rev_zeros, dz. destruct (rev (d :: l)) as [|d' r] eqn:er.
    + apply (f_equal (@List.length nat)) in er. rewrite rev_length in er. discriminate.
    + assert (d' <> O) by (apply (h2 d' r); reflexivity). replace (drop0 (d' :: r)) with (d' :: r) by (destruct d'; [contradiction|reflexivity]).
      rewrite <- er, rev_length. reflexivity.
Qed.
Lemma show_digits_sig z : (0 < z)%Z -> (z mod 10 <> 0)%Z -> exists l, digits_ok l /\ l <> nil /\ show_nonneg z = digits_text l /\ digits_val l = z /\
  (forall d r, l = d :: r -> d <> O) /\ (forall d r, rev l = d :: r -> d <> O) /\ Z.of_nat (List.length l) = ndigits z.
Proof.
  intros h hm. destruct (show_nonneg_ok z ltac:(lia)) as (l & h1 & h2 & h3 & h4 & h5). exists l. split; [exact h1|]. split; [exact h2|]. split; [exact h3|]. split; [exact h4|]. split; [|split].
  - intros d r -> ->. destruct h5 as [h5|h5].
    + destruct r; [|discriminate]. cbn in h4. lia.
    + change (O :: r) with (zeros 1 ++ r) in h4. rewrite zeros_val in h4. apply digits_ok_cons in h1. pose proof (digits_val_lt r (proj2 h1)) as k. rewrite h4 in k. cbn [List.length] in h5.
      replace (Z.of_nat (S (List.length r)) - 1)%Z with (Z.of_nat (List.length r)) in h5 by lia. lia.
  - intros d r hr ->. apply hm. rewrite <- h4. rewrite <- (rev_involutive l), hr. cbn [rev]. rewrite digits_val_app. rewrite Z.add_0_r, Z.mul_comm. apply Z.mod_mul. lia.
  - unfold ndigits. rewrite h3, digits_text_len. reflexivity.
Qed.
Lemma substring_0 l : forall p, substring 0 p (digits_text l) = digits_text (firstn p l).
Proof. induction l as [|d l IH]; intros [|p]; try reflexivity. cbn. rewrite IH. reflexivity. Qed.
Lemma substring_all l : forall n, (List.length l <= n)%nat -> substring 0 n (digits_text l) = digits_text l.
Proof. intros n h. rewrite substring_0. rewrite firstn_all2 by exact h. reflexivity. Qed.
Lemma substring_p l : forall p, substring p (String.length (digits_text l) - p) (digits_text l) = digits_text (skipn p l).
Proof.
  induction l as [|d l IH]; intros [|p]; try reflexivity.
  - cbn [skipn]. rewrite Nat.sub_0_r. apply substring_all. rewrite digits_text_len. lia.
  - cbn [digits_text String.length substring skipn]. apply IH.
Qed.
Lemma pad_text k z : (0 <= z)%Z -> exists l, digits_ok l /\ l <> nil /\ show_padded k z = digits_text l /\ digits_val l = z.
Proof.
  intro h. unfold show_padded. destruct (show_nonneg_ok z h) as (l & h1 & h2 & h3 & h4 & _). rewrite h3, pad_zeros_text. eexists. split; [|split; [|split; [reflexivity|]]].
  - apply digits_ok_app. split; [apply zeros_ok|exact h1].
  - intro c. apply app_eq_nil in c. apply h2, c.
  - rewrite zeros_val. exact h4.
Qed.
Lemma pad_two z : (0 <= z)%Z -> exists l, digits_ok l /\ l <> nil /\ show_padded 2 z = digits_text l /\ digits_val l = z /\ (2 <= List.length l)%nat /\ ((2 < List.length l)%nat -> exists d r, l = d :: r /\ d <> O).
Proof.
  intro h. unfold show_padded. destruct (show_nonneg_ok z h) as (l & h1 & h2 & h3 & h4 & h5). rewrite h3, pad_zeros_text, digits_text_len. eexists. split; [|split; [|split; [reflexivity|split; [|split]]]].
  - apply digits_ok_app. split; [apply zeros_ok|exact h1].
  - intro c. apply app_eq_nil in c. apply h2, c.
  - rewrite zeros_val. exact h4.
  - rewrite app_length, zeros_len. lia.
  - rewrite app_length, zeros_len. intro g. replace (2 - List.length l)%nat with O by lia. cbn [zeros List.app]. destruct l as [|d r]; [congruence|]. exists d, r. split; [reflexivity|]. intros ->.
    destruct h5 as [h5|h5]; [rewrite h5 in g; cbn in g; lia|]. change (O :: r) with (zeros 1 ++ r) in h4. rewrite zeros_val in h4. apply digits_ok_cons in h1. pose proof (digits_val_lt r (proj2 h1)) as k. rewrite h4 in k. cbn [List.length] in h5.
    replace (Z.of_nat (S (List.length r)) - 1)%Z with (Z.of_nat (List.length r)) in h5 by lia. lia.
Qed.
Lemma zeros_text_ok n : zeros_text n = digits_text (zeros (Z.to_nat n)).
Proof. unfold zeros_text. change ""%string with (digits_text nil) at 1. rewrite pad_zeros_text, app_nil_r. reflexivity. Qed.

(** ** The text is a numeral *)
Definition numR (n : numeral) : R :=
  IZR (sign_val (nsign n) * digits_val (nwhole n ++ frac_digits n)) *
  p10 ((match nexp n with None => 0 | Some (s, e) => sign_val s * digits_val e end) - Z.of_nat (List.length (frac_digits n))).
Lemma Q2R_pow10 k : Q2R (Qpower (inject_Z 10) k) = p10 k.
Proof.
  assert (n : forall p, Q2R (Qpower_positive (inject_Z 10) p) = p10 (Zpos p)).
  { intro p. assert (q : (Qpower_positive (inject_Z 10) p == inject_Z (10 ^ Zpos p))%Q).
    { change (Qpower_positive (inject_Z 10) p) with (Qpower (inject_Z 10) (Zpos p)). rewrite <- Zpower_Qpower by lia. reflexivity. }
    rewrite (Qeq_eqR _ _ q). unfold Q2R, inject_Z. cbn [Qnum Qden]. rewrite Rinv_1, Rmult_1_r. symmetry. apply p10_nonneg. lia. }
  destruct k as [|p|p].
  - cbn [Qpower]. change (p10 0) with 1. unfold Q2R. cbn. lra.
  - apply n.
  - cbn [Qpower]. rewrite Q2R_inv; [rewrite n; symmetry; exact (p10_opp (Zpos p))|]. intro c. apply Qeq_eqR in c. rewrite n in c. replace (Q2R 0) with 0 in c by (unfold Q2R; cbn; lra). pose proof (p10_gt (Zpos p)). lra.
Qed.
Lemma Q2R_num n : Q2R (num_val n) = numR n.
Proof.
  unfold num_val, numR. rewrite Q2R_mult, Q2R_pow10. f_equal. unfold Q2R, inject_Z. cbn [Qnum Qden]. rewrite Rinv_1, Rmult_1_r. reflexivity.
Qed.
Definition sg (s : bool) : option bool := if s then Some true else None.
Lemma format_ok (s : bool) (z k : Z) : (0 < z)%Z -> (z mod 10 <> 0)%Z -> exists n, num_ok n /\ ((if s then "-" else "") +++ format z k)%string = num_text n /\ nsign n = sg s /\
  numR n = sgn s * (IZR z * p10 k) /\ Z.of_nat (sig_digits n) = ndigits z /\ layout n /\ (nexp n = None <-> p10 (-4) <= IZR z * p10 k < p10 16).
Proof.
  intros hz hm. destruct (show_digits_sig z hz hm) as (l & l1 & l2 & l3 & l4 & l5 & l6 & l7). unfold format. rewrite l3.
  assert (st : (if s then "-" else "")%string = sign_text (sg s)) by (destruct s; reflexivity). rewrite st.
  assert (sv : IZR (sign_val (sg s)) = sgn s) by (destruct s; reflexivity).
  rewrite digits_text_len. set (n := Z.of_nat (List.length l)) in *. set (p := (n + k)%Z) in *.
  assert (n0 : (0 < n)%Z) by (destruct l; [congruence|cbn in n; lia]).
  assert (sp : sg s <> Some false) by (destruct s; discriminate).
  assert (size : p10 (p - 1) <= IZR z * p10 k < p10 p).
  { destruct (ndigits_ok z hz) as (d0 & d1 & d2). rewrite <- l7 in d0, d1, d2. fold n in d0, d1, d2. apply IZR_le in d1. apply IZR_lt in d2. rewrite <- p10_nonneg in d1, d2 by lia. unfold p. replace (n + k - 1)%Z with (n - 1 + k)%Z by lia. rewrite !p10_add.
    pose proof (p10_gt k). split; [apply Rmult_le_compat_r; lra|apply Rmult_lt_compat_r; lra]. }
  destruct (Z.leb p (-4) || Z.ltb 16 p) eqn:big.
  - (* with an exponent *)
    destruct (pad_two (Z.abs (p - 1)) ltac:(lia)) as (x & x1 & x2 & x3 & x4 & x5 & x6).
    destruct l as [|d r]; [congruence|]. apply digits_ok_cons in l1. destruct l1 as (d9 & r9).
    set (num := Numeral (sg s) [d] (if Z.eqb n 1 then None else Some r) (Some (Some (Z.ltb (p - 1) 0), x))).
    assert (fd : frac_digits num = r).
    { unfold frac_digits, num. cbn [nfrac]. destruct (Z.eqb n 1) eqn:q; [|reflexivity]. apply Z.eqb_eq in q. unfold n in q. cbn [List.length] in q. destruct r; [reflexivity|cbn in q; lia]. }
    exists num. split; [|split; [|split; [reflexivity|split; [|split; [|split]]]]].
    + unfold num_ok. rewrite fd. unfold num. cbn [nwhole nexp]. split; [apply digits_ok_cons; split; [exact d9|intros ? []]|]. split; [exact r9|]. split; [discriminate|]. split; assumption.
    + unfold num_text, num. cbn [nsign nwhole nfrac nexp]. f_equal. unfold show_exp. rewrite x3.
      assert (sx : (if Z.ltb (p - 1) 0 then "-" else "+")%string = sign_text (Some (Z.ltb (p - 1) 0))) by (destruct (Z.ltb (p - 1) 0); reflexivity). rewrite sx.
      destruct (Z.eqb n 1) eqn:q.
      * apply Z.eqb_eq in q. unfold n in q. cbn [List.length] in q. destruct r; [reflexivity|cbn in q; lia].
      * rewrite substring_0. rewrite <- (digits_text_len (d :: r)). rewrite substring_p. cbn [firstn skipn]. rewrite !sapp_assoc. reflexivity.
    + unfold numR. rewrite fd. unfold num. cbn [nsign nwhole nexp]. change ([d] ++ r) with (d :: r). rewrite l4, x4, mult_IZR, sv. rewrite Rmult_assoc. do 3 f_equal.
      assert (xs : (sign_val (Some (Z.ltb (p - 1) 0)) * Z.abs (p - 1) = p - 1)%Z) by (destruct (Z.ltb (p - 1) 0) eqn:q; [apply Z.ltb_lt in q|apply Z.ltb_ge in q]; cbn [sign_val]; lia). rewrite xs. unfold p, n. cbn [List.length]. lia.
    + unfold sig_digits. rewrite fd. unfold num. cbn [nwhole]. change ([d] ++ r) with (zeros 0 ++ (d :: r)). rewrite <- (app_nil_r (d :: r)). change (@nil nat) with (zeros 0) at 1. rewrite core_len by assumption. exact l7.
    + split; [exact sp|]. unfold num. cbn [nexp nwhole nfrac]. split; [exists d; split; [reflexivity|exact (l5 d r eq_refl)]|]. split; [|split; [discriminate|split; assumption]].
      intros f hf. destruct (Z.eqb n 1) eqn:q; [discriminate|]. injection hf as <-. apply Z.eqb_neq in q. cbn [rev] in l6. destruct (rev r) as [|a t] eqn:er.
      * exfalso. apply q. unfold n. rewrite <- (rev_involutive r), er. reflexivity.
      * exists a, t. split; [reflexivity|]. apply (l6 a (t ++ [d])). reflexivity.
    + split; [discriminate|]. intros (b1 & b2). exfalso. apply orb_true_iff in big. destruct big as [b|b].
      * apply Z.leb_le in b. apply p10_le in b. lra.
      * apply Z.ltb_lt in b. assert (b' : (16 <= p - 1)%Z) by lia. apply p10_le in b'. lra.
  - assert (plain : p10 (-4) <= IZR z * p10 k < p10 16).
    { apply orb_false_iff in big. destruct big as (b1 & b2). apply Z.leb_gt in b1. apply Z.ltb_ge in b2. apply p10_le in b2. assert (b' : (-4 <= p - 1)%Z) by lia. apply p10_le in b'. lra. }
    assert (hd : neat_head l) by (destruct l as [|d r]; [congruence|]; exists d, r; split; [reflexivity|]; intro c; destruct (l5 d r eq_refl c)).
    assert (tl : forall l', l' <> nil -> (exists q, l = q ++ l') -> exists d t, rev l' = d :: t /\ d <> O).
    { intros l' ne (q & eq). destruct (rev l') as [|d t] eqn:er; [exfalso; apply ne; rewrite <- (rev_involutive l'), er; reflexivity|]. exists d, t. split; [reflexivity|]. apply (l6 d (t ++ rev q)). rewrite eq, rev_app_distr, er. reflexivity. }
    destruct (Z.leb p 0) eqn:p0.
    + apply Z.leb_le in p0. set (num := Numeral (sg s) [O] (Some (zeros (Z.to_nat (- p)) ++ l)) None). exists num. split; [|split; [|split; [reflexivity|split; [|split; [|split]]]]].
      * unfold num_ok, num. cbn [nwhole nfrac nexp frac_digits]. split; [intros ? [<-|[]]; lia|]. split; [apply digits_ok_app; split; [apply zeros_ok|exact l1]|]. split; [discriminate|exact I].
      * unfold num_text, num. cbn [nsign nwhole nfrac nexp]. rewrite sapp_nil, zeros_text_ok, digits_text_app. reflexivity.
      * unfold numR, num. cbn [nsign nwhole nfrac nexp frac_digits]. change ([O] ++ zeros (Z.to_nat (- p)) ++ l) with (zeros (S (Z.to_nat (- p))) ++ l). rewrite zeros_val, l4, mult_IZR, sv, Rmult_assoc. do 3 f_equal.
        rewrite app_length, zeros_len, Nat2Z.inj_add, Z2Nat.id by lia. unfold p, n. lia.
      * unfold sig_digits, num. cbn [nwhole nfrac frac_digits]. change ([O] ++ zeros (Z.to_nat (- p)) ++ l) with (zeros (S (Z.to_nat (- p))) ++ l). rewrite <- (app_nil_r l) at 1. change (@nil nat) with (zeros 0). rewrite core_len by assumption. exact l7.
      * split; [exact sp|]. unfold num. cbn [nexp nwhole nfrac]. split; [exists O, nil; auto|]. eexists. split; [reflexivity|]. rewrite rev_app_distr. destruct (tl l l2 (ex_intro _ nil eq_refl)) as (d & t & -> & dn). exists d, (t ++ rev (zeros (Z.to_nat (- p)))). split; [reflexivity|]. intro c. contradiction.
      * split; [intros _; exact plain|reflexivity].
    + apply Z.leb_gt in p0. destruct (Z.leb n p) eqn:np.
      * apply Z.leb_le in np. set (num := Numeral (sg s) (l ++ zeros (Z.to_nat k)) (Some [O]) None). exists num. split; [|split; [|split; [reflexivity|split; [|split; [|split]]]]].
        -- unfold num_ok, num. cbn [nwhole nfrac nexp frac_digits]. split; [apply digits_ok_app; split; [exact l1|apply zeros_ok]|]. split; [intros ? [<-|[]]; lia|]. split; [|exact I]. intro c. apply app_eq_nil in c. discriminate (proj2 c).
        -- unfold num_text, num. cbn [nsign nwhole nfrac nexp]. rewrite sapp_nil, zeros_text_ok, digits_text_app, !sapp_assoc. reflexivity.
        -- unfold numR, num. cbn [nsign nwhole nfrac nexp frac_digits List.length]. change [O] with (zeros 1). rewrite <- app_assoc. rewrite mult_IZR, sv, Rmult_assoc. f_equal.
           rewrite !app_assoc, !digits_val_zeros, l4. rewrite !mult_IZR, <- !p10_nonneg by lia. rewrite !Rmult_assoc, <- !p10_add. do 2 f_equal. rewrite Z2Nat.id by (unfold p in np; lia). lia.
        -- unfold sig_digits, num. cbn [nwhole nfrac frac_digits]. rewrite <- app_assoc. replace (zeros (Z.to_nat k) ++ [O]) with (zeros (Z.to_nat k + 1)) by (induction (Z.to_nat k) as [|j IH]; [reflexivity|cbn; f_equal; exact IH]).
           change (l ++ zeros (Z.to_nat k + 1)) with (zeros 0 ++ l ++ zeros (Z.to_nat k + 1)). rewrite core_len by assumption. exact l7.
        -- split; [exact sp|]. unfold num. cbn [nexp nwhole nfrac]. split; [|eexists; split; [reflexivity|exists O, nil; auto]]. destruct l as [|d r]; [congruence|]. exists d, (r ++ zeros (Z.to_nat k)). split; [reflexivity|]. intro c. destruct (l5 d r eq_refl c).
        -- split; [intros _; exact plain|reflexivity].
      * apply Z.leb_gt in np. set (j := Z.to_nat p). set (num := Numeral (sg s) (firstn j l) (Some (skipn j l)) None).
        assert (jl : (j < List.length l)%nat) by (unfold j, n in *; lia).
        exists num. split; [|split; [|split; [reflexivity|split; [|split; [|split]]]]].
        -- unfold num_ok, num. cbn [nwhole nfrac nexp frac_digits]. rewrite firstn_skipn. rewrite <- (firstn_skipn j l) in l1. apply digits_ok_app in l1. destruct l1. auto.
        -- unfold num_text, num. cbn [nsign nwhole nfrac nexp]. rewrite sapp_nil. rewrite substring_0. rewrite <- (digits_text_len l). rewrite substring_p. reflexivity.
        -- unfold numR, num. cbn [nsign nwhole nfrac nexp frac_digits]. rewrite firstn_skipn, l4, mult_IZR, sv, Rmult_assoc. do 3 f_equal. rewrite skipn_length. unfold j, p, n in *. lia.
        -- unfold sig_digits, num. cbn [nwhole nfrac frac_digits]. rewrite firstn_skipn. rewrite <- (app_nil_r l) at 1. change (@nil nat) with (zeros 0) at 1. change (l ++ zeros 0) with (zeros 0 ++ l ++ zeros 0). rewrite core_len by assumption. exact l7.
        -- split; [exact sp|]. unfold num. cbn [nexp nwhole nfrac]. split.
           ++ destruct l as [|d r]; [congruence|]. destruct j as [|j'] eqn:ej; [exfalso; unfold j in ej; lia|]. exists d, (firstn j' r). split; [reflexivity|]. intro c. destruct (l5 d r eq_refl c).
           ++ eexists. split; [reflexivity|]. destruct (tl (skipn j l)) as (d & t & -> & dn); [intro c; apply (f_equal (@List.length nat)) in c; rewrite skipn_length in c; cbn in c; lia|exists (firstn j l); symmetry; apply firstn_skipn|]. exists d, t. split; [reflexivity|]. intro c. contradiction.
        -- split; [intros _; exact plain|reflexivity].
Qed.

(** ** Floats *)
Lemma sign_pos v x : nearest64 v x -> 0 < SFR x -> 0 < v.
Proof.
  intros (_ & _ & h & _) p. specialize (h (S754_zero false) I). cbn [SFR] in h. apply Rnot_le_lt. intro c. rewrite !Rabs_pos_eq in h by lra. lra.
Qed.
Lemma num_core n : num_ok n -> exists c k, (0 <= c < 10 ^ Z.of_nat (sig_digits n))%Z /\ numR n = IZR (sign_val (nsign n)) * (IZR c * p10 k).
Proof.
  intros (h1 & h2 & _). assert (h : digits_ok (nwhole n ++ frac_digits n)) by (apply digits_ok_app; auto). destruct (core_ok _ h) as (c & t & hc & e).
  eexists c, _. split; [exact hc|]. unfold numR. rewrite e, !mult_IZR, <- p10_nonneg by lia. rewrite !Rmult_assoc. do 2 f_equal. rewrite <- p10_add. reflexivity.
Qed.
Lemma pos_text m e (s : bool) : finite64 (S754_finite false m e) -> exists n, float_repr (S754_finite s m e) = Ok (num_text n) /\ num_ok n /\ nsign n = sg s /\ layout n /\
  exists w, numR n = sgn s * w /\ nearest64 w (S754_finite false m e) /\ 0 < w /\ (nexp n = None <-> p10 (-4) <= w < p10 16) /\
  forall c k j, (0 < c < 10 ^ Z.of_nat j)%Z -> nearest64 (IZR c * p10 k) (S754_finite false m e) ->
    (sig_digits n <= j)%nat /\ ((j <= sig_digits n)%nat -> Rabs (w - SFR (S754_finite false m e)) <= Rabs (IZR c * p10 k - SFR (S754_finite false m e)) /\
      (Rabs (w - SFR (S754_finite false m e)) = Rabs (IZR c * p10 k - SFR (S754_finite false m e)) -> IZR c * p10 k <> w -> exists a, w = IZR (2 * a) * Rabs (IZR c * p10 k - w))).
Proof.
  intro hx. set (x := S754_finite false m e) in *. cbn [float_repr]. destruct (shortest_ok m e hx 17 1 ltac:(lia) ltac:(cbn; lia)) as (z & j & e1 & j17 & pj & none).
  set (K := decpt m e) in *. rewrite e1. cbn [bind]. pose proof (pick_ok m e hx j ltac:(lia)) as po. fold K in po. rewrite pj in po. destruct po as (rz & zz & near & _).
  destruct (low_ok m e hx j ltac:(lia)) as (lo & l1 & l2). unfold reads in rz. fold K in rz, near, lo. fold x in rz.
  assert (p1 : (0 < 10 ^ (j - 1))%Z) by (apply Z.pow_pos_nonneg; lia).
  assert (hz : (0 < z < 10 ^ (Z.of_nat 17 + 1))%Z).
  { split; [lia|]. apply Z.le_lt_trans with (10 ^ j)%Z; [lia|]. apply Z.pow_lt_mono_r; cbn; lia. }
  pose proof (trim_ok 17 z (K - j)%Z hz) as tr. destruct (trim 17 z (K - j)) as (z', k'). destruct tr as (t1 & t2 & t3 & t4).
  destruct (format_ok s z' k' ltac:(lia) t2) as (n & n1 & n2 & n3 & n4 & n5 & n8 & n9). exists n. rewrite n2. split; [reflexivity|]. split; [exact n1|]. split; [exact n3|]. split; [exact n8|].
  assert (w0 : IZR z' * p10 k' = IZR z * p10 (K - j)).
  { rewrite t4, mult_IZR, <- p10_nonneg by lia. rewrite Rmult_assoc, <- p10_add. do 2 f_equal. lia. }
  exists (IZR z' * p10 k'). split; [exact n4|]. split; [rewrite w0; exact rz|]. split; [apply Rmult_lt_0_compat; [apply IZR_lt; lia|apply p10_gt]|]. split; [exact n9|].
  destruct (ndigits_ok z' ltac:(lia)) as (d0 & d1 & d2).
  (* no decimal of fewer than j digits *)
  assert (few : forall c k i, (1 <= i < j)%Z -> (0 < c < 10 ^ i)%Z -> nearest64 (IZR c * p10 k) x -> False).
  { intros c k i hi hc hr. pose proof (pick_ok m e hx i ltac:(lia)) as pi. fold K in pi. rewrite (none i hi) in pi. destruct pi as (n6 & n7).
    destruct (cover m e hx i ltac:(lia) c k hc hr) as (w & [-> | ->] & rw & _); contradiction. }
  assert (sj : Z.of_nat (sig_digits n) = j).
  { rewrite n5. assert (ndigits z' <= j)%Z.
    { destruct (Z.eq_dec z (10 ^ j)) as [ez|ez].
      - assert (ndigits z' = 1)%Z; [|lia]. assert (q : (k' - (K - j) = j)%Z \/ (k' - (K - j) < j)%Z \/ (j < k' - (K - j))%Z) by lia. rewrite ez in t4. destruct q as [q|[q|q]].
        + rewrite q in t4. assert (z' = 1)%Z by nia. subst z'. reflexivity.
        + exfalso. apply t2. replace j with ((j - (k' - (K - j)) - 1) + 1 + (k' - (K - j)))%Z in t4 at 1 by lia. rewrite !Z.pow_add_r in t4 by lia.
          apply Z.mul_cancel_r in t4; [|apply Z.pow_nonzero; lia]. rewrite <- t4. rewrite Z.pow_1_r. apply Z.mod_mul. lia.
        + exfalso. assert (10 ^ j < 10 ^ (k' - (K - j)))%Z by (apply Z.pow_lt_mono_r; lia). nia.
      - assert (z' < 10 ^ j)%Z by lia. assert (k : (10 ^ (ndigits z' - 1) < 10 ^ j)%Z) by lia. apply Z.pow_lt_mono_r_iff in k; lia. }
    destruct (Z.eq_dec (ndigits z') j) as [|ne]; [assumption|exfalso]. apply (few z' k' (ndigits z')); [lia|lia|]. rewrite w0. exact rz. }
  intros c k i hc hr. assert (i0 : (0 < i)%nat) by (destruct i; [cbn in hc; lia|lia]). split.
  - destruct (le_lt_dec (sig_digits n) i) as [|g]; [assumption|exfalso]. apply (few c k (Z.of_nat i)); [lia|exact hc|exact hr].
  - intro le. rewrite w0. assert (hc2 : (0 < c < 10 ^ j)%Z).
    { split; [lia|]. apply Z.lt_le_trans with (10 ^ Z.of_nat i)%Z; [lia|]. apply Z.pow_le_mono_r; lia. }
    split; [destruct (cover m e hx j ltac:(lia) c k hc2 hr) as (w & hw & rw & cl); fold K in cl; apply Rle_trans with (2 := cl); apply near; assumption|].
    intros eq ne. destruct (tie m e hx j ltac:(lia) c k z pj hc2 hr eq ne) as (ev & d). fold K in d. rewrite d. apply Z.even_spec in ev. destruct ev as (a & ->). exists a. reflexivity.
Qed.
Theorem float_text_ok x : finite64 x -> exists n, float_repr x = Ok (num_text n) /\ num_ok n /\ minus n = sign_bit x /\ nearest64 (Q2R (num_val n)) x /\ layout n /\ (nexp n = None <-> plain_size (Q2R (num_val n))) /\
  forall n', num_ok n' -> nearest64 (Q2R (num_val n')) x ->
    (sig_digits n <= sig_digits n')%nat /\ (sig_digits n' = sig_digits n -> Rabs (Q2R (num_val n) - SFR x) <= Rabs (Q2R (num_val n') - SFR x) /\
      (Rabs (Q2R (num_val n) - SFR x) = Rabs (Q2R (num_val n') - SFR x) -> Q2R (num_val n') <> Q2R (num_val n) -> exists a, Q2R (num_val n) = IZR (2 * a) * Rabs (Q2R (num_val n') - Q2R (num_val n)))).
Proof.
  intro hx. destruct x as [s|s| |s m e]; try contradiction.
  - exists (Numeral (sg s) [O] (Some [O]) None). split; [destruct s; reflexivity|]. split.
    { split; [intros ? [<-|[]]; lia|]. split; [intros ? [<-|[]]; lia|]. split; [discriminate|exact I]. }
    split; [destruct s; reflexivity|]. rewrite Q2R_num. replace (numR _) with 0 by (unfold numR; cbn [nsign nwhole nfrac frac_digits]; change (digits_val ([O] ++ [O])) with 0%Z; rewrite Z.mul_0_r; ring). split.
    + split; [exact I|]. rewrite Rabs_R0. split; [apply Rmult_lt_0_compat; [apply IZR_lt; reflexivity|apply p2_gt]|]. cbn [SFR even_float]. split; [|auto]. intros y _. rewrite Rminus_0_r, Rabs_R0. apply Rabs_pos.
    + split; [split; [destruct s; discriminate|]; cbn [nexp nwhole nfrac]; split; [exists O, nil; auto|exists [O]; split; [reflexivity|exists O, nil; auto]]|]. split; [split; [intros _; left; reflexivity|reflexivity]|].
      intros n' _ _. split; [cbn; lia|]. intros _. cbn [SFR]. rewrite Rminus_0_r, Rabs_R0. split; [apply Rabs_pos|]. intros _ _. exists 0%Z. rewrite Rmult_0_l. reflexivity.
  - assert (hp : finite64 (S754_finite false m e)) by exact hx. destruct (pos_text m e s hp) as (n & n1 & n2 & n3 & n7 & w & n4 & n5 & w0 & n8 & n6). exists n. split; [exact n1|]. split; [exact n2|].
    assert (flip : forall v, nearest64 v (S754_finite s m e) <-> nearest64 (sgn s * v) (S754_finite false m e)).
    { intro v. destruct s; cbn [sgn].
      - split; intro h; apply nearest_opp in h; cbn [SFopp negb] in h; [replace (-1 * v) with (- v) by ring|replace v with (- (-1 * v)) by ring]; exact h.
      - rewrite Rmult_1_l. reflexivity. }
    assert (ss : sgn s * sgn s = 1) by (destruct s; cbn; lra). assert (sx : SFR (S754_finite s m e) = sgn s * SFR (S754_finite false m e)) by (cbn [SFR]; fold (sgn s); ring).
    split; [unfold minus; rewrite n3; destruct s; reflexivity|]. split.
    + rewrite Q2R_num, n4. apply flip. rewrite <- Rmult_assoc, ss, Rmult_1_l. exact n5.
    + split; [exact n7|]. split.
      { rewrite n8, Q2R_num, n4. unfold plain_size. rewrite Rabs_mult, sgn_abs, Rmult_1_l, Rabs_pos_eq by lra. replace (p10 (-4)) with (/ 10000) by (symmetry; etransitivity; [exact (p10_opp 4)|rewrite p10_nonneg by lia; reflexivity]).
        replace (p10 16) with (10 ^ 16) by (rewrite p10_nonneg by lia; rewrite pow_IZR; reflexivity). split; [auto|]. intros [c|c]; [|exact c]. exfalso. destruct s; cbn [sgn] in c; lra. }
      intros n' o' h'. rewrite !Q2R_num in *. apply flip in h'. destruct (num_core n' o') as (c & k & hc & ec).
      assert (pos : 0 < sgn s * numR n') by (apply (sign_pos _ _ h'); cbn [SFR]; rewrite Rmult_1_l; apply Rmult_lt_0_compat; [apply IZR_lt; lia|apply p2_gt]).
      assert (cc : (0 < c)%Z /\ sgn s * numR n' = IZR c * p10 k).
      { rewrite ec in pos |- *. pose proof (p10_gt k) as pk. assert (c0 : 0 <= IZR c) by (apply IZR_le; lia). assert (c1 : 0 <= IZR c * p10 k) by (apply Rmult_le_pos; lra).
        assert (c <> 0%Z) by (intros ->; revert pos; rewrite Rmult_0_l, !Rmult_0_r; lra). split; [lia|].
        destruct s, (nsign n') as [[|]|]; cbn [sgn sign_val] in *; lra. }
      destruct cc as (c0 & ev). rewrite ev in h'. destruct (n6 c k (sig_digits n') ltac:(lia) h') as (a & b). split; [exact a|].
      intro q. specialize (b ltac:(lia)). rewrite n4, sx. rewrite <- ev in b.
      assert (ab : forall p q, Rabs (sgn s * p - sgn s * q) = Rabs (p - q)) by (intros; rewrite <- Rmult_minus_distr_l, Rabs_mult, sgn_abs; ring).
      assert (back : numR n' = sgn s * (sgn s * numR n')) by (rewrite <- Rmult_assoc, ss; ring). set (N := sgn s * numR n') in *. rewrite back, !ab. destruct b as (b1 & b2). split; [exact b1|].
      intros eq ne. destruct (b2 eq) as (d & hd); [intro c1; apply ne; rewrite c1; reflexivity|]. exists (if s then - d else d)%Z. rewrite hd at 1. rewrite !mult_IZR. destruct s; cbn [sgn]; [rewrite opp_IZR|]; ring.
Qed.
