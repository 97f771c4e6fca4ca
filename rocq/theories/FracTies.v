(** * FracTies: of two closest fractions limit_denominator returns the simpler *)
From Coq Require Import List ZArith QArith Qcanon Qabs Bool Lia Lqa Znumtheory.
From Verif Require Import Py FloatExp Balance BalanceSpec FracFacts.
Import ListNotations.
Local Open Scope Q_scope.
Local Open Scope Z_scope.

Section Order.
Variables N D : Z.
Hypothesis prime_ND : Z.gcd N D = 1.
Hypothesis big : max_den < D.
Definition sorted (s : ld) : Prop := s = start N D \/ inv N D s /\ q0 s <= q1 s.
Lemma sorted_step s b t : sorted s -> ld_step s = (b, t) -> sorted t.
Proof.
  intros [-> |[i h]] e.
  - destruct (first_step N D prime_ND big) as [u [eu [iu _]]]. rewrite eu in e. injection e as <- <-. right. split; [exact iu|].
    unfold ld_step, start in eu. cbn [p0 q0 p1 q1 ln_ ld_] in eu. replace (1 + N / D * 0) with 1 in eu by ring.
    cbn [Z.ltb Z.compare Pos.compare Pos.compare_cont max_den] in eu. injection eu as <-. cbn. lia.
  - destruct b.
    + unfold ld_step in e. destruct (_ <? _); [|discriminate]. injection e as <-. right. split; assumption.
    + destruct (step_inv N D prime_ND big s t i e) as [it _]. right. split; [exact it|].
      unfold ld_step in e. destruct (_ <? _); [discriminate|]. injection e as <-. cbn [q0 q1].
      pose proof (i_d N D s i). pose proof (i_q1 N D s i). pose proof (i_q0 N D s i). assert (1 <= ln_ s / ld_ s) by (apply Z.div_le_lower_bound; lia). nia.
Qed.
Lemma sorted_loop f : forall s b t, sorted s -> ld_loop f s = (b, t) -> sorted t.
Proof.
  induction f as [f IH|f IH|]; intros s b t h e; cbn [ld_loop] in e; [| |exact (sorted_step s b t h e)].
  - destruct (ld_step s) as [c u] eqn:e1. pose proof (sorted_step s c u h e1) as hu. cbn [fst snd] in e. destruct c; [injection e as <- <-; exact hu|].
    destruct (ld_loop f u) as [c v] eqn:e2. pose proof (IH u c v hu e2) as hv. cbn [fst snd] in e. destruct c; [injection e as <- <-; exact hv|]. exact (IH v b t hv e).
  - destruct (ld_loop f s) as [c v] eqn:e2. pose proof (IH s c v h e2) as hv. cbn [fst snd] in e. destruct c; [injection e as <- <-; exact hv|]. exact (IH v b t hv e).
Qed.
End Order.

Lemma red_den P Q w : Z.gcd P Q = 1 -> 0 < Q -> (w == P # Z.to_pos Q)%Q -> Q <= Zpos (Qden w).
Proof.
  intros g h e. unfold Qeq in e. cbn [Qnum Qden] in e. rewrite Z2Pos.id in e by exact h. destruct w as [a b]. cbn [Qnum Qden] in *.
  assert (d : (Q | Zpos b)). { apply (Gauss Q P (Zpos b)); [exists a; lia|]. apply Zgcd_1_rel_prime. rewrite Z.gcd_comm. exact g. }
  apply Z.divide_pos_le in d; lia.
Qed.
Lemma Qred_den P Q : 0 < Q -> Zpos (Qden (Qred (P # Z.to_pos Q))) <= Q.
Proof.
  intro h. pose proof (Qred_correct (P # Z.to_pos Q)) as e. pose proof (Qred_identity2 (Qred (P # Z.to_pos Q)) (Qred_involutive _)) as g.
  destruct (Qred (P # Z.to_pos Q)) as [a b]. cbn [Qnum Qden] in *. unfold Qeq in e. cbn [Qnum Qden] in e. rewrite Z2Pos.id in e by lia.
  assert (d : (Zpos b | Q)). { apply (Gauss (Zpos b) a Q); [exists P; lia|]. apply Zgcd_1_rel_prime. rewrite Z.gcd_comm. exact g. }
  apply Z.divide_pos_le in d; lia.
Qed.
Lemma det_gcd a b c d : a * d - b * c = 1 \/ a * d - b * c = -1 -> Z.gcd b d = 1.
Proof.
  intro h. pose proof (Z.gcd_nonneg b d) as n. assert (k : (Z.gcd b d | 1)); [|apply Z.divide_1_r_nonneg in k; assumption].
  pose proof (Z.gcd_divide_l b d) as [u eu]. pose proof (Z.gcd_divide_r b d) as [v ev].
  destruct h as [h|h]; [exists (a * v - u * c)|exists (u * c - a * v)]; nia.
Qed.
Lemma frac_diff a b c d : 0 < b -> 0 < d -> (Qabs ((a # Z.to_pos b) - (c # Z.to_pos d)) == Z.abs (a * d - c * b) # (Z.to_pos (b * d)))%Q.
Proof.
  intros hb hd. unfold Qminus, Qplus, Qopp, Qabs, Qeq. cbn [Qnum Qden]. rewrite !Pos2Z.inj_mul, !Z2Pos.id by nia. replace (a * d + - c * b) with (a * d - c * b) by ring. reflexivity.
Qed.

Theorem limit_tie x w : Zpos (Qden w) <= max_den -> (Qabs (w - x) == Qabs (limit_denominator x - x))%Q ->
  (w == limit_denominator x)%Q \/ Zpos (Qden (limit_denominator x)) < Zpos (Qden w).
Proof.
  intro hw. unfold limit_denominator. pose proof (Qred_correct x) as ex. pose proof (Qred_involutive x) as ei. set (y := Qred x) in *. cbv zeta.
  destruct (Z.leb_spec (Zpos (Qden y)) max_den) as [h|h].
  - intro t. left. assert (e : (y - x == 0)%Q) by (rewrite ex; ring). rewrite e in t. change (Qabs 0) with 0%Q in t.
    assert (z : (w - x == 0)%Q). { destruct (Qlt_le_dec (w - x) 0) as [o|o]; [rewrite Qabs_neg in t by lra|rewrite Qabs_pos in t by lra]; lra. } lra.
  - assert (hg : Z.gcd (Qnum y) (Zpos (Qden y)) = 1) by exact (Qred_identity2 y ei).
    destruct (loop_stops (Qnum y) (Zpos (Qden y)) hg h (Qden y) eq_refl) as [s [es [i hs]]]. fold (start (Qnum y) (Zpos (Qden y))).
    pose proof (sorted_loop _ _ hg h (Qden y) _ true s (or_introl eq_refl) es) as so. rewrite es. cbn [snd].
    assert (hqq : q0 s <= q1 s). { destruct so as [e|[_ so]]; [|exact so]. destruct i as [_ _ _ _ h5 _]. rewrite e in h5. cbn in h5. lia. }
    destruct i as [h1 h2 h3 h4 h5 h6]. set (a := ln_ s / ld_ s) in *. set (k := (max_den - q0 s) / q1 s).
    assert (hk : 0 <= max_den - q0 s - k * q1 s < q1 s).
    { pose proof (Z.mod_pos_bound (max_den - q0 s) (q1 s) ltac:(lia)) as hm. rewrite Z.mod_eq in hm by lia. fold k in hm. lia. }
    assert (hka : k < a) by (apply (Z.mul_lt_mono_pos_r (q1 s)); lia).
    assert (hk0 : 0 <= k) by (unfold k; apply Z.div_pos; lia).
    assert (han : a * ld_ s <= ln_ s) by (unfold a; rewrite Z.mul_comm; apply Z.mul_div_le; lia).
    assert (hn : 0 < ln_ s - k * ld_ s) by (assert (k * ld_ s < a * ld_ s) by (apply Z.mul_lt_mono_pos_r; lia); lia).
    set (P := p0 s + k * p1 s). set (Q := q0 s + k * q1 s). assert (hQ : 0 < Q <= max_den) by (unfold Q; lia).
    assert (hdet : p1 s * Q - P * q1 s = p1 s * q0 s - p0 s * q1 s) by (unfold P, Q; ring).
    assert (gPQ : Z.gcd P Q = 1) by (apply (det_gcd (p1 s) P (q1 s) Q); rewrite hdet; exact h3).
    pose proof (Qred_correct (P # Z.to_pos Q)) as e1. pose proof (Qred_correct (p1 s # Z.to_pos (q1 s))) as e2.
    pose proof (Qred_den (p1 s) (q1 s) ltac:(lia)) as s2.
    set (b1 := Qred (P # Z.to_pos Q)) in *. set (b2 := Qred (p1 s # Z.to_pos (q1 s))) in *.
    assert (ey : y = Qnum y # Z.to_pos (Zpos (Qden y))) by (destruct y; reflexivity).
    assert (ew : w = Qnum w # Z.to_pos (Zpos (Qden w))) by (destruct w; reflexivity).
    assert (x2 : Qnum y * q1 s - Zpos (Qden y) * p1 s = - (p1 s * q0 s - p0 s * q1 s) * ld_ s) by (rewrite <- h1, <- h2; ring).
    assert (x1 : Qnum y * Q - Zpos (Qden y) * P = (p1 s * q0 s - p0 s * q1 s) * (ln_ s - k * ld_ s)) by (rewrite <- h1, <- h2; unfold P, Q; ring).
    (* a tie makes the denominator of b2 the smaller *)
    assert (tie : (Qabs (b2 - y) == Qabs (b1 - y))%Q -> q1 s < Q).
    { intro t. rewrite e1, e2, ey in t. rewrite !frac_diff in t by lia. unfold Qeq in t. cbn [Qnum Qden] in t. rewrite !Z2Pos.id in t by (apply Z.mul_pos_pos; lia).
      assert (a2 : Z.abs (p1 s * Zpos (Qden y) - Qnum y * q1 s) = ld_ s) by (destruct h3 as [h3|h3]; rewrite h3 in x2; lia).
      assert (a1 : Z.abs (P * Zpos (Qden y) - Qnum y * Q) = ln_ s - k * ld_ s) by (destruct h3 as [h3|h3]; rewrite h3 in x1; lia).
      rewrite a1, a2 in t. clear - t hk hk0 hqq h3 h4 h5 h6. set (d := Zpos (Qden y)) in *. assert (hd : 0 < d) by (unfold d; lia). clearbody d. unfold Q in *.
      assert (t' : ld_ s * (q0 s + k * q1 s) = (ln_ s - k * ld_ s) * q1 s) by (apply (Z.mul_reg_r _ _ d); [lia|]; lia). clear t.
      destruct (Z.eq_dec k 0) as [z|z]; [exfalso; rewrite z in t'; assert (ld_ s * q0 s <= ld_ s * q1 s) by (apply Z.mul_le_mono_nonneg_l; lia); assert (ld_ s * q1 s < ln_ s * q1 s) by (apply Z.mul_lt_mono_pos_r; lia); lia|].
      assert (q1 s <= k * q1 s) by (rewrite <- (Z.mul_1_l (q1 s)) at 1; apply Z.mul_le_mono_nonneg_r; lia).
      destruct (Z.eq_dec (q0 s) 0) as [z0|z0]; [|lia].
      assert (e1 : q1 s = 1). { rewrite z0 in h3. assert (dv : (q1 s | 1)) by (destruct h3 as [h3|h3]; [exists (- p0 s)|exists (p0 s)]; lia). apply Z.divide_1_r_nonneg in dv; lia. }
      unfold max_den in *. lia. }
    assert (exx : forall z, (Qabs (z - x) == Qabs (z - y))%Q) by (intro z; rewrite ex; reflexivity). rewrite !exx.
    assert (key : (w == b1 \/ w == b2 \/ (Qabs (b1 - y) < Qabs (w - y)) \/ (Qabs (b2 - y) < Qabs (w - y)))%Q).
    { assert (gen : forall lo hi, (lo <= y <= hi)%Q -> (w <= lo \/ hi <= w)%Q -> (w == lo \/ w == hi \/ Qabs (lo - y) < Qabs (w - y) \/ Qabs (hi - y) < Qabs (w - y))%Q).
      { intros lo hi [l1 l2] [o|o].
        - rewrite (Qabs_neg (lo - y)), (Qabs_neg (w - y)) by lra. destruct (Qlt_le_dec w lo); [right; right; left; lra|left; lra].
        - rewrite (Qabs_pos (hi - y)), (Qabs_pos (w - y)) by lra. destruct (Qlt_le_dec hi w); [right; right; right; lra|right; left; lra]. }
      destruct h3 as [h3|h3]; rewrite h3 in x1, x2, hdet.
      - apply gen.
        + split; [rewrite e1, ey; apply Qle_frac; lia|rewrite e2, ey; apply Qle_frac; lia].
        + destruct (neighbours P Q (p1 s) (q1 s) (Qnum w) (Zpos (Qden w)) max_den) as [o|o]; try lia; [left; rewrite e1, ew|right; rewrite e2, ew]; apply Qle_frac; lia.
      - destruct (gen b2 b1) as [o|[o|[o|o]]]; try tauto.
        + split; [rewrite e2, ey; apply Qle_frac; lia|rewrite e1, ey; apply Qle_frac; lia].
        + destruct (neighbours (p1 s) (q1 s) P Q (Qnum w) (Zpos (Qden w)) max_den) as [o|o]; try lia; [left; rewrite e2, ew|right; rewrite e1, ew]; apply Qle_frac; lia. }
    destruct (Qle_bool (Qabs (b2 - y)) (Qabs (b1 - y))) eqn:c; intro t.
    + apply Qle_bool_iff in c. destruct key as [o|[o|[o|o]]]; [|left; exact o| |].
      * right. assert (tt' : (Qabs (b2 - y) == Qabs (b1 - y))%Q) by (rewrite <- t, o; reflexivity).
        pose proof (tie tt') as q. pose proof (red_den P Q w gPQ ltac:(lia) ltac:(rewrite o; exact e1)) as r. lia.
      * exfalso. lra.
      * exfalso. lra.
    + assert (n : ~ (Qabs (b2 - y) <= Qabs (b1 - y))%Q) by (rewrite <- Qle_bool_iff; congruence).
      destruct key as [o|[o|[o|o]]]; [left; exact o| | |].
      * exfalso. rewrite o in t. lra.
      * exfalso. lra.
      * exfalso. lra.
Qed.
