(** * FracFacts: the closest fraction and the common multiple of fractions *)
From Coq Require Import List ZArith QArith Qcanon Qabs Bool Lia Lqa Znumtheory.
From Verif Require Import Py FloatExp Balance BalanceSpec.
Import ListNotations.
Local Open Scope Q_scope.
Local Open Scope Z_scope.

(** ** limit_denominator *)
Section Limit.
Variables N D : Z.
Hypothesis prime_ND : Z.gcd N D = 1.
Hypothesis big : max_den < D.
(** What holds after at least one round. *)
Record inv (s : ld) : Prop := {
  i_num : p1 s * ln_ s + p0 s * ld_ s = N;
  i_den : q1 s * ln_ s + q0 s * ld_ s = D;
  i_det : p1 s * q0 s - p0 s * q1 s = 1 \/ p1 s * q0 s - p0 s * q1 s = -1;
  i_q0 : 0 <= q0 s;
  i_q1 : 1 <= q1 s <= max_den;
  i_d : 0 < ld_ s < ln_ s }.
Lemma inv_pos s : p1 s * ln_ s + p0 s * ld_ s = N -> q1 s * ln_ s + q0 s * ld_ s = D -> 1 <= q1 s <= max_den -> 0 <= ld_ s < ln_ s -> 0 < ld_ s.
Proof.
  intros h1 h2 h3 [h4 h5]. destruct (Z.eq_dec (ld_ s) 0) as [e|]; [|lia]. exfalso. rewrite e in *.
  assert (d : (ln_ s | Z.gcd N D)) by (apply Z.gcd_greatest; [exists (p1 s)|exists (q1 s)]; lia). rewrite prime_ND in d.
  apply Z.divide_1_r_nonneg in d; [|lia]. rewrite d in *. lia.
Qed.
Lemma step_inv s t : inv s -> ld_step s = (false, t) -> inv t /\ ld_ t < ld_ s.
Proof.
  intros i h. unfold ld_step in h. destruct (max_den <? q0 s + ln_ s / ld_ s * q1 s) eqn:e; [discriminate|]. injection h as <-. apply Z.ltb_ge in e.
  destruct i as [h1 h2 h3 h4 h5 h6].
  assert (ha : 1 <= ln_ s / ld_ s) by (apply Z.div_le_lower_bound; lia).
  assert (hm : 0 <= ln_ s - ln_ s / ld_ s * ld_ s < ld_ s) by (pose proof (Z.mod_pos_bound (ln_ s) (ld_ s) ltac:(lia)) as hm; rewrite Z.mod_eq in hm by lia; lia).
  set (a := ln_ s / ld_ s) in e, ha, hm |- *.
  assert (j1 : (p0 s + a * p1 s) * ld_ s + p1 s * (ln_ s - a * ld_ s) = N) by (rewrite <- h1; ring).
  assert (j2 : (q0 s + a * q1 s) * ld_ s + q1 s * (ln_ s - a * ld_ s) = D) by (rewrite <- h2; ring).
  assert (j5 : 1 <= q0 s + a * q1 s <= max_den) by nia.
  split; [|cbn; lia]. split; cbn [p0 q0 p1 q1 ln_ ld_]; try assumption; try lia.
  split; [|lia]. apply (inv_pos (LD (p1 s) (q1 s) (p0 s + a * p1 s) (q0 s + a * q1 s) (ld_ s) (ln_ s - a * ld_ s))); cbn; assumption || lia.
Qed.
Definition start : ld := LD 0 1 1 0 N D.
Lemma first_step : exists t, ld_step start = (false, t) /\ inv t /\ ld_ t < D.
Proof.
  unfold ld_step, start. cbn [p0 q0 p1 q1 ln_ ld_]. set (a := N / D). unfold max_den in *. assert (hD : 0 < D) by lia.
  replace (1 + a * 0) with 1 by ring. cbn [Z.ltb Z.compare Pos.compare Pos.compare_cont]. eexists. split; [reflexivity|].
  assert (hm : 0 <= N - a * D < D) by (pose proof (Z.mod_pos_bound N D hD) as hm; rewrite Z.mod_eq in hm by lia; fold a in hm; lia).
  split; [|cbn; lia]. split; cbn [p0 q0 p1 q1 ln_ ld_]; unfold max_den; try lia.
  split; [|lia]. apply (inv_pos (LD 1 0 (0 + a * 1) 1 D (N - a * D))); cbn [p0 q0 p1 q1 ln_ ld_]; unfold max_den; lia.
Qed.
(** [f] rounds either stop or lower [d] by [f]. *)
Definition ok (s : ld) : Prop := inv s \/ s = start.
Definition rounds (f : positive) (s : ld) (r : bool * ld) : Prop :=
  ok (snd r) /\ (fst r = true -> inv (snd r) /\ ld_step (snd r) = (true, snd r)) /\ (fst r = false -> ld_ (snd r) <= ld_ s - Zpos f).
Lemma rounds_one s : ok s -> rounds 1 s (ld_step s).
Proof.
  intros [i| ->].
  - destruct (ld_step s) as [[] t] eqn:e; unfold rounds; cbn [fst snd].
    + assert (t = s) as -> by (unfold ld_step in e; destruct (_ <? _); congruence). split; [left; exact i|]. split; [intros _; split; [exact i|exact e]|discriminate].
    + destruct (step_inv s t i e). split; [left; assumption|]. split; [discriminate|]. intro. lia.
  - destruct first_step as [t [e [i lt]]]. rewrite e. split; [left; exact i|]. split; [discriminate|]. cbn. lia.
Qed.
Lemma rounds_loop f : forall s, ok s -> rounds f s (ld_loop f s).
Proof.
  induction f as [f IH|f IH|]; intros s i; [| |exact (rounds_one s i)]; cbn [ld_loop].
  - destruct (rounds_one s i) as [h1 [h2 h3]]. destruct (ld_step s) as [[] t] eqn:e; cbn [fst snd] in *; [split; [assumption|split; [assumption|discriminate]]|].
    destruct (IH t h1) as [k1 [k2 k3]]. destruct (ld_loop f t) as [[] u] eqn:e'; cbn [fst snd] in *; [split; [assumption|split; [assumption|discriminate]]|].
    destruct (IH u k1) as [l1 [l2 l3]]. destruct (ld_loop f u) as [[] v] eqn:e2; cbn [fst snd] in *; (split; [assumption|split; [assumption|]]); [discriminate|].
    intro. specialize (h3 eq_refl). specialize (k3 eq_refl). specialize (l3 eq_refl). cbn [snd]. lia.
  - destruct (IH s i) as [k1 [k2 k3]]. destruct (ld_loop f s) as [[] u] eqn:e'; cbn [fst snd] in *; [split; [assumption|split; [assumption|discriminate]]|].
    destruct (IH u k1) as [l1 [l2 l3]]. destruct (ld_loop f u) as [[] v] eqn:e2; cbn [fst snd] in *; (split; [assumption|split; [assumption|]]); [discriminate|].
    intro. specialize (k3 eq_refl). specialize (l3 eq_refl). cbn [snd]. lia.
Qed.
Lemma loop_stops f : Zpos f = D -> exists s, ld_loop f start = (true, s) /\ inv s /\ max_den < q0 s + ln_ s / ld_ s * q1 s.
Proof.
  intro hf. destruct (rounds_loop f start (or_intror eq_refl)) as [h1 [h2 h3]]. destruct (ld_loop f start) as [b s]; cbn [fst snd] in *. exists s.
  destruct b.
  - destruct (h2 eq_refl) as [i e]. split; [reflexivity|]. split; [exact i|].
    unfold ld_step in e. destruct (max_den <? q0 s + ln_ s / ld_ s * q1 s) eqn:k; [apply Z.ltb_lt in k; exact k|discriminate].
  - specialize (h3 eq_refl). cbn [start ld_] in h3. exfalso. destruct h1 as [i| ->]; [pose proof (i_d s i); lia|cbn in h3; lia].
Qed.
End Limit.

(** No fraction with a small denominator lies between neighbours. *)
Lemma neighbours P Q P2 Q2 u v M : P2 * Q - P * Q2 = 1 -> 0 < Q -> 0 < Q2 -> M < Q + Q2 -> 0 < v <= M -> u * Q <= P * v \/ P2 * v <= u * Q2.
Proof.
  intros h hq hq2 hM hv. destruct (Z.le_gt_cases (u * Q) (P * v)) as [l|l]; [left; exact l|]. destruct (Z.le_gt_cases (P2 * v) (u * Q2)) as [r|r]; [right; exact r|]. exfalso.
  assert (e : v = Q * (P2 * v - u * Q2) + Q2 * (u * Q - P * v)) by (transitivity (v * (P2 * Q - P * Q2)); [rewrite h; ring|ring]). nia.
Qed.
Lemma Qle_frac a b c d : 0 < b -> 0 < d -> a * d <= c * b -> (a # Z.to_pos b <= c # Z.to_pos d)%Q.
Proof. intros hb hd. unfold Qle. cbn. rewrite !Z2Pos.id by assumption. tauto. Qed.
Lemma closest_between (lo x hi w : Q) : (lo <= x <= hi)%Q -> (w <= lo \/ hi <= w)%Q -> (Qabs (lo - x) <= Qabs (w - x) \/ Qabs (hi - x) <= Qabs (w - x))%Q.
Proof.
  intros [h1 h2] [h|h]; [left|right].
  - rewrite (Qabs_neg (lo - x)) by lra. rewrite (Qabs_neg (w - x)) by lra. lra.
  - rewrite (Qabs_pos (hi - x)) by lra. rewrite (Qabs_pos (w - x)) by lra. lra.
Qed.
Definition small_fraction (y : Q) : Prop := Qred y = y /\ Zpos (Qden y) <= max_den.
Lemma Qred_small P Q : 0 < Q <= max_den -> small_fraction (Qred (P # Z.to_pos Q)).
Proof.
  intros [h h']. split; [apply Qred_involutive|]. 
  pose proof (Qred_correct (P # Z.to_pos Q)) as e. pose proof (Qred_identity2 (Qred (P # Z.to_pos Q)) (Qred_involutive _)) as g.
  destruct (Qred (P # Z.to_pos Q)) as [a b]. cbn [Qnum Qden] in *. unfold Qeq in e. cbn [Qnum Qden] in e. rewrite Z2Pos.id in e by lia.
  assert (d : (Zpos b | Q)). { apply (Gauss (Zpos b) a Q); [exists P; lia|]. apply Zgcd_1_rel_prime. rewrite Z.gcd_comm. exact g. }
  apply Z.divide_pos_le in d; lia.
Qed.
Theorem limit_closest x : small_fraction (limit_denominator x) /\
  forall w, Zpos (Qden w) <= max_den -> (Qabs (limit_denominator x - x) <= Qabs (w - x))%Q.
Proof.
  unfold limit_denominator. pose proof (Qred_correct x) as ex. pose proof (Qred_involutive x) as ei. set (y := Qred x) in *. cbv zeta.
  destruct (Z.leb_spec (Zpos (Qden y)) max_den) as [h|h].
  - split; [split; [exact ei|exact h]|]. intros w _. assert (e : (y - x == 0)%Q) by (rewrite ex; ring). rewrite e. apply Qabs_nonneg.
  - destruct (loop_stops (Qnum y) (Zpos (Qden y)) (Qred_identity2 y ei) h (Qden y) eq_refl) as [s [es [i hs]]]. fold (start (Qnum y) (Zpos (Qden y))). rewrite es. cbn [snd].
    destruct i as [h1 h2 h3 h4 h5 h6]. set (a := ln_ s / ld_ s) in *. set (k := (max_den - q0 s) / q1 s).
    assert (hk : 0 <= max_den - q0 s - k * q1 s < q1 s).
    { pose proof (Z.mod_pos_bound (max_den - q0 s) (q1 s) ltac:(lia)) as hm. rewrite Z.mod_eq in hm by lia. fold k in hm. lia. }
    assert (hka : k < a) by (apply (Z.mul_lt_mono_pos_r (q1 s)); lia).
    assert (han : a * ld_ s <= ln_ s) by (unfold a; rewrite Z.mul_comm; apply Z.mul_div_le; lia).
    assert (hn : 0 < ln_ s - k * ld_ s) by (assert (k * ld_ s < a * ld_ s) by (apply Z.mul_lt_mono_pos_r; lia); lia).
    set (P := p0 s + k * p1 s). set (Q := q0 s + k * q1 s). assert (hQ : 0 < Q <= max_den) by (unfold Q; lia).
    assert (hdet : p1 s * Q - P * q1 s = p1 s * q0 s - p0 s * q1 s) by (unfold P, Q; ring).
    pose proof (Qred_correct (P # Z.to_pos Q)) as e1. pose proof (Qred_correct (p1 s # Z.to_pos (q1 s))) as e2.
    pose proof (Qred_small P Q hQ) as s1. pose proof (Qred_small (p1 s) (q1 s) ltac:(lia)) as s2.
    set (b1 := Qred (P # Z.to_pos Q)) in *. set (b2 := Qred (p1 s # Z.to_pos (q1 s))) in *.
    split; [destruct (Qle_bool _ _); assumption|]. intros w hw.
    assert (key : (Qabs (b1 - y) <= Qabs (w - y) \/ Qabs (b2 - y) <= Qabs (w - y))%Q).
    { assert (ey : y = Qnum y # Z.to_pos (Zpos (Qden y))) by (destruct y; reflexivity).
      assert (ew : w = Qnum w # Z.to_pos (Zpos (Qden w))) by (destruct w; reflexivity).
      assert (x2 : Qnum y * q1 s - Zpos (Qden y) * p1 s = - (p1 s * q0 s - p0 s * q1 s) * ld_ s) by (rewrite <- h1, <- h2; ring).
      assert (x1 : Qnum y * Q - Zpos (Qden y) * P = (p1 s * q0 s - p0 s * q1 s) * (ln_ s - k * ld_ s)) by (rewrite <- h1, <- h2; unfold P, Q; ring).
      destruct h3 as [h3|h3]; rewrite h3 in x1, x2, hdet.
      - (* b1 below *) assert (l1 : (b1 <= y)%Q) by (rewrite e1, ey; apply Qle_frac; lia).
        assert (l2 : (y <= b2)%Q) by (rewrite e2, ey; apply Qle_frac; lia).
        assert (o : (w <= b1 \/ b2 <= w)%Q).
        { destruct (neighbours P Q (p1 s) (q1 s) (Qnum w) (Zpos (Qden w)) max_den) as [o|o]; try lia; [left; rewrite e1, ew|right; rewrite e2, ew]; apply Qle_frac; lia. }
        exact (closest_between b1 y b2 w (conj l1 l2) o).
      - assert (l1 : (b2 <= y)%Q) by (rewrite e2, ey; apply Qle_frac; lia).
        assert (l2 : (y <= b1)%Q) by (rewrite e1, ey; apply Qle_frac; lia).
        assert (o : (w <= b2 \/ b1 <= w)%Q).
        { destruct (neighbours (p1 s) (q1 s) P Q (Qnum w) (Zpos (Qden w)) max_den) as [o|o]; try lia; [left; rewrite e2, ew|right; rewrite e1, ew]; apply Qle_frac; lia. }
        destruct (closest_between b2 y b1 w (conj l1 l2) o); tauto. }
    assert (exx : forall z, (Qabs (z - x) == Qabs (z - y))%Q) by (intro z; rewrite ex; reflexivity). rewrite !exx.
    destruct (Qle_bool (Qabs (b2 - y)) (Qabs (b1 - y))) eqn:c; [apply Qle_bool_iff in c; destruct key; lra|].
    assert (~ (Qabs (b2 - y) <= Qabs (b1 - y)))%Q by (rewrite <- Qle_bool_iff; congruence). destruct key; lra.
Qed.
(** A fraction with a denominator of at most a thousand is found from any number
    within 5e-10 of it. *)
Theorem limit_finds x u v : 0 < v <= 1000 -> (Qabs (x - (u # Z.to_pos v)) < 1 # 2000000000)%Q -> limit_denominator x = Qred (u # Z.to_pos v).
Proof.
  intros hv hx. destruct (limit_closest x) as [[r1 r2] c]. set (y := limit_denominator x) in *.
  assert (hw : Zpos (Qden (u # Z.to_pos v)) <= max_den) by (cbn; rewrite Z2Pos.id by lia; unfold max_den; lia). specialize (c _ hw).
  set (w := u # Z.to_pos v) in *. assert (cw : (Qabs (w - x) < 1 # 2000000000)%Q).
  { rewrite Qabs_Qminus. exact hx. }
  assert (d : (Qabs (y - w) < 1 # 1000000000)%Q).
  { assert (e : (y - w == (y - x) + (x - w))%Q) by ring. rewrite e. eapply Qle_lt_trans; [apply Qabs_triangle|]. lra. }
  rewrite <- r1. apply Qred_complete. unfold w in *. clear w. destruct y as [a b]. cbn [Qden] in *. unfold Qeq. cbn [Qnum Qden]. rewrite Z2Pos.id by lia.
  unfold Qlt, Qabs, Qminus, Qplus, Qopp in d. cbn [Qnum Qden] in d. rewrite Pos2Z.inj_mul, Z2Pos.id in d by lia. unfold max_den in r2.
  assert (Z.abs (a * v + - u * Zpos b) < 1) by nia. lia.
Qed.

(** ** Rounded quotients *)
Lemma div_even_close n d : 0 < d -> 2 * Z.abs (div_even n d * d - n) <= d.
Proof.
  intro hd. unfold div_even. pose proof (Z.div_mod n d ltac:(lia)) as e. pose proof (Z.mod_pos_bound n d hd) as b. set (q := n / d) in *. set (r := n mod d) in *.
  destruct (Z.compare_spec (2 * r) d) as [c|c|c]; [destruct (Z.even q)|..]; nia.
Qed.
Lemma div_even_whole q d : 0 < d -> div_even (q * d) d = q.
Proof.
  intro hd. unfold div_even. rewrite Z.div_mul, Z.mod_mul by lia. destruct (Z.compare_spec (2 * 0) d) as [c|c|c]; [lia|reflexivity|lia].
Qed.
Lemma last_bit_small n d : 0 < n <= 1000 -> 0 < d -> last_bit n d <= -43.
Proof.
  intros hn hd. unfold last_bit. assert (a : Z.log2 n < 10) by (apply Z.log2_lt_pow2; lia). pose proof (Z.log2_nonneg d).
  destruct (if 0 <=? Z.log2 n - Z.log2 d then _ else _); lia.
Qed.
Lemma fl_pos_close n d : 0 < n <= 1000 -> 0 < d -> (Qabs (fl_pos n d - (n # Z.to_pos d)) < 1 # 2000000000)%Q.
Proof.
  intros hn hd. pose proof (last_bit_small n d hn hd) as l. unfold fl_pos. set (e := last_bit n d) in *. destruct (Z.leb_spec 0 e) as [c|c]; [lia|].
  assert (p : 2 ^ 43 <= 2 ^ (- e)) by (apply Z.pow_le_mono_r; lia). set (P := 2 ^ (- e)) in *. pose proof (div_even_close (n * P) d hd) as k. set (m := div_even (n * P) d) in *.
  assert (p0 : 2000000000 < P) by lia. clearbody P m. clear - k p0 hd.
  unfold Qlt, Qabs, Qminus, Qplus, Qopp. cbn [Qnum Qden]. rewrite Pos2Z.inj_mul, !Z2Pos.id by lia. replace (m * d + - n * P) with (m * d - n * P) by ring. nia.
Qed.
Lemma fl_whole n : 0 <= n <= 1000 -> fl (Q2Qc (inject_Z n)) = Q2Qc (inject_Z n).
Proof.
  intro hn. assert (t : this (Q2Qc (inject_Z n)) = (n # 1)) by (change (Qred (inject_Z n) = (n # 1)%Q); apply Qred_identity; cbn [Qnum Qden inject_Z]; apply Z.gcd_1_r). unfold fl. rewrite t. cbn [Qnum Qden].
  destruct (Z.eqb_spec n 0) as [->|nz]; [reflexivity|]. destruct (Z.ltb_spec 0 n) as [c|c]; [|lia].
  apply Qc_is_canon. cbn [this Q2Qc]. rewrite !Qred_correct.
  pose proof (last_bit_small n 1 ltac:(lia) ltac:(lia)) as l. unfold fl_pos. set (e := last_bit n 1) in *. destruct (Z.leb_spec 0 e) as [c'|c']; [lia|].
  assert (p : 0 < 2 ^ (- e)) by (apply Z.pow_pos_nonneg; lia). set (P := 2 ^ (- e)) in *. replace (div_even (n * P) 1) with (n * P) by (rewrite <- (Z.mul_1_r (n * P)) at 2; rewrite div_even_whole by lia; reflexivity).
  unfold Qeq, inject_Z. cbn [Qnum Qden]. rewrite Z2Pos.id by lia. ring.
Qed.

(** ** Common multiples *)
Lemma gcd_divides l : forall k, In k l -> (gcd_list l | k).
Proof.
  induction l as [|a l IH]; intros k h; [destruct h|]. change (gcd_list (a :: l)) with (Z.gcd a (gcd_list l)). destruct h as [->|h]; [apply Z.gcd_divide_l|].
  eapply Z.divide_trans; [apply Z.gcd_divide_r|apply IH; exact h].
Qed.
Lemma gcd_largest l d : (forall k, In k l -> (d | k)) -> (d | gcd_list l).
Proof.
  induction l as [|a l IH]; intro h; [apply Z.divide_0_r|]. change (gcd_list (a :: l)) with (Z.gcd a (gcd_list l)).
  apply Z.gcd_greatest; [apply h; left; reflexivity|apply IH; intros; apply h; right; assumption].
Qed.
Lemma gcd_nonneg l : 0 <= gcd_list l.
Proof. destruct l; [cbn; lia|apply Z.gcd_nonneg]. Qed.
Lemma lcm_multiple l : forall k, In k l -> (k | lcm_list l).
Proof.
  induction l as [|a l IH]; intros k h; [destruct h|]. change (lcm_list (a :: l)) with (Z.lcm a (lcm_list l)). destruct h as [->|h]; [apply Z.divide_lcm_l|].
  eapply Z.divide_trans; [apply IH; exact h|apply Z.divide_lcm_r].
Qed.
Lemma lcm_smallest l d : (forall k, In k l -> (k | d)) -> (lcm_list l | d).
Proof.
  induction l as [|a l IH]; intro h; [apply Z.divide_1_l|]. change (lcm_list (a :: l)) with (Z.lcm a (lcm_list l)).
  apply Z.lcm_least; [apply h; left; reflexivity|apply IH; intros; apply h; right; assumption].
Qed.
Lemma lcm_nonneg l : 0 <= lcm_list l.
Proof. destruct l; [cbn; lia|apply Z.lcm_nonneg]. Qed.
(** The reduced fraction [k / kl]. *)
Lemma Qred_parts k kl : 0 < k -> 0 < kl -> exists d, 0 < d /\ (d | k) /\ (d | kl) /\
  Qnum (Qred (k # Z.to_pos kl)) * d = k /\ Zpos (Qden (Qred (k # Z.to_pos kl))) * d = kl.
Proof.
  intros hk hl. pose proof (Qred_correct (k # Z.to_pos kl)) as e. pose proof (Qred_identity2 _ (Qred_involutive (k # Z.to_pos kl))) as g.
  destruct (Qred (k # Z.to_pos kl)) as [a b]. cbn [Qnum Qden] in *. unfold Qeq in e. cbn [Qnum Qden] in e. rewrite Z2Pos.id in e by lia.
  assert (d : (Zpos b | kl)). { apply (Gauss (Zpos b) a kl); [exists k; lia|]. apply Zgcd_1_rel_prime. rewrite Z.gcd_comm. exact g. }
  destruct d as [d hd]. assert (0 < d) by nia. assert (a * d = k) by nia. exists d. repeat split; [assumption|exists a; lia|exists (Zpos b); lia|assumption|lia].
Qed.
Lemma g_pos ks : ks <> [] -> Forall (fun k => 0 < k) ks -> 0 < gcd_list ks.
Proof.
  intros hn hp. destruct hp as [|k l hk hl]; [tauto|]. pose proof (gcd_divides (k :: l) k (or_introl eq_refl)) as h. pose proof (gcd_nonneg (k :: l)).
  destruct (Z.eq_dec (gcd_list (k :: l)) 0) as [z|]; [rewrite z in h; apply Z.divide_0_l in h; lia|lia].
Qed.
Section Common.
Variables (ks : list Z) (kl : Z).
Hypothesis some : ks <> [].
Hypothesis pos : Forall (fun k => 0 < k) ks.
Hypothesis pos_l : 0 < kl.
Hypothesis prime : Z.gcd (gcd_list ks) kl = 1.
Let xs := map (fun k => Qred (k # Z.to_pos kl)) ks.
Let g := gcd_list ks.
Lemma numerators_gcd : gcd_list (map Qnum xs) = g.
Proof.
  apply Z.divide_antisym_nonneg; [apply gcd_nonneg|apply gcd_nonneg| |].
  - apply gcd_largest. intros k hk. assert (0 < k) by (rewrite Forall_forall in pos; auto). destruct (Qred_parts k kl) as [d [hd [d1 [d2 [d3 d4]]]]]; [assumption..|].
    eapply Z.divide_trans; [apply gcd_divides; unfold xs; rewrite map_map; apply in_map; exact hk|]. exists d. lia.
  - apply gcd_largest. unfold xs. rewrite map_map. intros n hn. apply in_map_iff in hn. destruct hn as [k [<- hk]].
    assert (0 < k) by (rewrite Forall_forall in pos; auto). destruct (Qred_parts k kl) as [d [hd [d1 [d2 [d3 d4]]]]]; [assumption..|].
    apply (Gauss g d); [rewrite Z.mul_comm, d3; apply gcd_divides; exact hk|]. apply Zgcd_1_rel_prime.
    apply Z.divide_1_r_nonneg; [apply Z.gcd_nonneg|]. rewrite <- prime. apply Z.gcd_greatest; [apply Z.gcd_divide_l|]. eapply Z.divide_trans; [apply Z.gcd_divide_r|exact d2].
Qed.
Lemma denominators_lcm : lcm_list (map (fun x => Zpos (Qden x)) xs) = kl.
Proof.
  unfold xs. rewrite map_map. set (L := lcm_list _).
  assert (h : (L | kl)).
  { apply lcm_smallest. intros n hn. apply in_map_iff in hn. destruct hn as [k [<- hk]]. assert (0 < k) by (rewrite Forall_forall in pos; auto).
    destruct (Qred_parts k kl) as [d [hd [d1 [d2 [d3 d4]]]]]; [assumption..|]. exists d. lia. }
  destruct h as [t ht]. assert (hL : 0 <= L) by apply lcm_nonneg. assert (ht0 : 0 < t) by nia.
  assert (t1 : (t | 1)).
  { rewrite <- prime. apply Z.gcd_greatest; [|exists L; lia]. apply gcd_largest. intros k hk. assert (0 < k) by (rewrite Forall_forall in pos; auto).
    destruct (Qred_parts k kl) as [d [hd [d1 [d2 [d3 d4]]]]]; [assumption..|].
    assert (m : (Zpos (Qden (Qred (k # Z.to_pos kl))) | L)) by (apply lcm_multiple; apply (in_map (fun k => Zpos (Qden (Qred (k # Z.to_pos kl))))); exact hk).
    destruct m as [s hs]. set (b := Zpos (Qden (Qred (k # Z.to_pos kl)))) in *. assert (hb : 0 < b) by (unfold b; lia). assert (d = s * t) by nia.
    eapply Z.divide_trans; [|exact d1]. exists s. assumption. }
  apply Z.divide_1_r_nonneg in t1; [|lia]. subst t. lia.
Qed.
Lemma lcm_found : kl <= 1000 -> g <= 1000 -> get_fraction_lcm xs = Ok (kl # Z.to_pos g).
Proof.
  intros hl hg. pose proof (g_pos ks some pos) as gp. fold g in gp. unfold get_fraction_lcm. rewrite numerators_gcd, denominators_lcm. destruct (Z.eqb_spec g 0); [lia|].
  destruct (Z.leb_spec ((2 ^ 54 - 1) * 2 ^ 970 * g) kl) as [c|c].
  { exfalso. assert (2000 * 1 <= (2 ^ 54 - 1) * 2 ^ 970 * g); [|lia]. apply Z.mul_le_mono_nonneg; [lia| |lia|lia]. vm_compute. discriminate. }
  f_equal. rewrite (limit_finds _ kl g); [|lia|apply fl_pos_close; lia].
  apply Qred_identity. cbn [Qnum Qden]. rewrite Z2Pos.id by lia. rewrite Z.gcd_comm. exact prime.
Qed.
End Common.
Definition float_of (z : Z) : expo := eflt (Q2Qc (inject_Z z)).
Theorem coefficients_found x ks kl : ks <> [] -> Forall (fun k => 0 < k) ks -> 0 < kl <= 1000 -> Z.gcd (gcd_of ks) kl = 1 -> Forall (fun k => k <= 1000) ks ->
  Forall2 (fun k x => close k kl x) ks x ->
  coefficients x = Ok (map (fun k => float_of (k / gcd_of ks)) (ks ++ [kl])).
Proof.
  intros hn hp hl hg hm hx. change (gcd_of ks) with (gcd_list ks) in *. pose proof (g_pos ks hn hp) as gp. unfold coefficients.
  assert (e : map (fun x => limit_denominator (- x)) x = map (fun k => Qred (k # Z.to_pos kl)) ks).
  { clear - hx hl. induction hx as [|k q ks' x' h hx IH]; [reflexivity|]. cbn [map]. rewrite IH. f_equal. apply limit_finds; [exact hl|].
    assert (m : (- q - (k # Z.to_pos kl) == - (q + (k # Z.to_pos kl)))%Q) by ring. rewrite m, Qabs_opp. exact h. }
  assert (hg1 : gcd_list ks <= 1000).
  { destruct ks as [|k ks']; [tauto|]. assert (d : (gcd_list (k :: ks') | k)) by (apply gcd_divides; left; reflexivity). inversion hp; subst. inversion hm; subst. apply Z.divide_pos_le in d; lia. }
  rewrite e. rewrite lcm_found by (assumption || lia). cbn [bind].
  assert (e2 : map (fun x => int_of_frac (Qred (x * (kl # Z.to_pos (gcd_list ks))))) (map (fun k => Qred (k # Z.to_pos kl)) ks) = map (fun k => k / gcd_list ks) ks).
  { rewrite map_map. apply map_ext_in. intros k hk. destruct (gcd_divides ks k hk) as [m hm']. set (g := gcd_list ks) in *. rewrite hm' at 2. rewrite Z.div_mul by lia.
    assert (em : Qred (Qred (k # Z.to_pos kl) * (kl # Z.to_pos g)) = Qred (m # 1)).
    { apply Qred_complete. rewrite Qred_correct. unfold Qeq, Qmult. cbn [Qnum Qden]. rewrite Pos2Z.inj_mul, !Z2Pos.id by lia. subst k. ring. }
    rewrite em. rewrite (Qred_identity (m # 1)) by (cbn [Qnum Qden]; apply Z.gcd_1_r). unfold int_of_frac. cbn [Qnum Qden]. apply Z.quot_1_r. }
  rewrite e2.
  assert (e4 : int_of_frac (kl # Z.to_pos (gcd_list ks)) = kl / gcd_list ks) by (unfold int_of_frac; cbn [Qnum Qden]; rewrite Z2Pos.id by lia; apply Z.quot_div_nonneg; lia).
  rewrite e4. cbv zeta. replace (map (fun k => k / gcd_list ks) ks ++ [kl / gcd_list ks]) with (map (fun k => k / gcd_list ks) (ks ++ [kl])) by (rewrite map_app; reflexivity).
  assert (e3 : gcd_list (map (fun k => k / gcd_list ks) (ks ++ [kl])) = 1).
  { apply Z.divide_1_r_nonneg; [apply gcd_nonneg|]. set (G := gcd_list (map _ _)). set (g := gcd_list ks) in *.
    assert (d : (G * g | g)).
    { apply gcd_largest. intros k hk. destruct (gcd_divides ks k hk) as [m hm']. fold g in hm'.
      assert (dm : (G | m)). { replace m with (k / g) by (rewrite hm'; apply Z.div_mul; lia). apply gcd_divides. apply (in_map (fun k => k / g)). apply in_or_app. left. exact hk. }
      rewrite hm'. apply Z.mul_divide_mono_r. exact dm. }
    destruct d as [t ht]. exists t. nia. }
  rewrite e3. cbn [Z.eqb]. set (g := gcd_list ks) in *.
  assert (sm : Forall (fun k => 0 <= k / g <= 1000) (ks ++ [kl])).
  { apply Forall_app. split; [|constructor; [|constructor]; split; [apply Z.div_pos; lia|apply Z.div_le_upper_bound; nia]].
    rewrite Forall_forall in *. intros k hk. specialize (hp k hk). specialize (hm k hk). split; [apply Z.div_pos; lia|apply Z.div_le_upper_bound; nia]. }
  revert sm. generalize (ks ++ [kl]). clear. intros l sm. induction sm as [|k l hk sm IH]; [reflexivity|]. cbn [map mapM]. rewrite IH. change (k / g # Z.to_pos 1) with (inject_Z (k / g)).
  rewrite fl_whole by exact hk. reflexivity.
Qed.
