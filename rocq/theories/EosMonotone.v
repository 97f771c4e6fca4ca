(** * EosMonotone: the iterations climb or descend to the extreme roots *)
From Coq Require Import String List ZArith QArith Bool Reals Lra Lia.
From Verif Require Import Py Num UnitsData UnitsStruct Units Eos EosSpec EosFoundSpec EosFacts EosExact EosLiquid.
Local Open Scope string_scope.
Local Open Scope R_scope.

Lemma cv_settles (f : Z -> res (pyval R)) (u : nat -> R) l : (forall n : nat, f (Z.of_nat n) = Ok (VNum (u n))) -> Un_cv u l -> settles f l.
Proof.
  intros hf hu eps he. destruct (hu eps he) as [N hN]. exists (Z.of_nat N). intros n hn. exists (u (Z.to_nat n)). split.
  - rewrite <- (hf (Z.to_nat n)), Z2Nat.id by lia. reflexivity.
  - apply (hN (Z.to_nat n)). lia.
Qed.
Lemma cv_le u l m : Un_cv u l -> (forall n, u n <= m) -> l <= m.
Proof. intros h hm. apply (Rle_cv_lim (fun n => hm n) h (cv_const m)). Qed.
Lemma cv_ge u l m : Un_cv u l -> (forall n, m <= u n) -> m <= l.
Proof. intros h hm. apply (Rle_cv_lim (fun n => hm n) (cv_const m) h). Qed.

Section Liquid.
Variables (b q : R).
Hypothesis hb : 0 < b.
Hypothesis hq : 0 < q.
Fixpoint up (n : nat) : R := match n with O => gl b q b | S n => gl b q (up n) end.
Lemma gl_mono x y : b <= x -> x <= y -> y <= 2 / 3 -> gl b q x <= gl b q y.
Proof.
  intros h1 h2 h3. assert (hp : 0 < q * b) by nra. set (D := x + y + b * (1 + b) - (x * x + x * y + y * y)).
  assert (e : gl b q y - gl b q x = D * (y - x) / (q * b)) by (unfold gl, D; field; lra).
  assert (hD : 0 <= D) by (unfold D; nra). assert (0 <= D * (y - x) / (q * b)) by (apply Rmult_le_pos; [nra|left; apply Rinv_0_lt_compat; lra]). lra.
Qed.
Lemma gl_root z : cubic b q z -> gl b q z = z.
Proof.
  intro h. unfold gl. unfold cubic in h. replace (z * (z + b) * ((1 + b - z) / (q * b))) with (z * (z + b) * (1 + b - z) / (q * b)) by (field; lra).
  replace (z * (z + b) * (1 + b - z)) with (q * b * (z - b)) by lra. field. lra.
Qed.
Lemma root_above z : cubic b q z -> 0 < z -> b < z.
Proof.
  intros h hz. unfold cubic in h. destruct (Rlt_le_dec b z) as [g|g]; [exact g|exfalso].
  assert (h1 : 0 < (1 + b - z) * (z * (z + b))) by (apply Rmult_lt_0_compat; nra). assert (hp : 0 < q * b) by nra.
  assert (h2 : q * b * (z - b) <= 0) by nra. nra.
Qed.
Lemma up_below r : cubic b q r -> 0 < r <= 2 / 3 -> forall n, b <= up n <= r.
Proof.
  intros hc hr. pose proof (root_above r hc (proj1 hr)) as ha.
  assert (h0 : b <= gl b q b). { unfold gl. assert (0 < q * b) by nra. assert (0 <= b * (b + b) * ((1 + b - b) / (q * b))); [|lra].
    apply Rmult_le_pos; [nra|]. apply Rmult_le_pos; [lra|left; apply Rinv_0_lt_compat; lra]. }
  induction n as [|n IH]; cbn [up].
  - split; [exact h0|]. rewrite <- (gl_root r hc). apply gl_mono; lra.
  - split; [apply Rle_trans with (gl b q b); [exact h0|apply gl_mono; lra]|]. rewrite <- (gl_root r hc). apply gl_mono; lra.
Qed.
Lemma up_grows r : cubic b q r -> 0 < r <= 2 / 3 -> Un_growing up.
Proof.
  intros hc hr n. pose proof (up_below r hc hr) as hi. induction n as [|n IH]; cbn [up].
  - pose proof (hi O) as h0. cbn [up] in h0. pose proof (hi 1%nat) as h1. cbn [up] in h1. apply gl_mono; lra.
  - pose proof (hi n). pose proof (hi (S n)) as h1. cbn [up] in h1, IH. apply gl_mono; lra.
Qed.
Lemma up_calls fv v fl : fl (VNum b) = Ok (VNum (gl b q b)) ->
  forall n : nat, solve_state "liquid" fv v fl (liquid_rhs (VNum b) (VNum q)) (VNum b) (Z.of_nat n) = Ok (VNum (up n)).
Proof.
  intros h0. induction n as [|n IH].
  - unfold solve_state. cbn [String.eqb Ascii.eqb Bool.eqb]. rewrite h0. reflexivity.
  - replace (Z.of_nat (S n)) with (Z.of_nat n + 1)%Z by lia. rewrite state_liquid by lia. rewrite IH. cbn [bind]. rewrite liquid_num, Reqb_no by nra. reflexivity.
Qed.
Lemma liquid_climbs (f : Z -> res (pyval R)) fv v fl r : fl (VNum b) = Ok (VNum (gl b q b)) ->
  (forall n, f n = solve_state "liquid" fv v fl (liquid_rhs (VNum b) (VNum q)) (VNum b) n) -> cubic b q r -> 0 < r <= 2 / 3 ->
  exists z, settles f z /\ cubic b q z /\ 0 < z /\ forall z', cubic b q z' -> 0 < z' -> z <= z'.
Proof.
  intros h0 hf hc hr. destruct (growing_cv up (up_grows r hc hr)) as [z hz].
  { exists r. intros x [n ->]. apply (up_below r hc hr). }
  assert (hs : settles f z) by (apply (cv_settles f up); [intro n; rewrite hf; apply up_calls; exact h0|exact hz]).
  exists z. split; [exact hs|]. split; [|split].
  - apply (liquid_limit f); [|exact hs]. intros n hn. rewrite !hf. apply state_liquid. exact hn.
  - apply Rlt_le_trans with b; [exact hb|]. apply (cv_ge up z b hz). intro n. apply (up_below r hc hr).
  - intros z' h' p. apply (cv_le up z z' hz). intro n. destruct (Rle_dec z' (2 / 3)) as [o|o]; [apply (up_below z' h'); lra|].
    pose proof (up_below r hc hr n). lra.
Qed.
End Liquid.

Section Vapor.
Variables (b q : R).
Hypothesis hb : 0 < b <= 2 / 5.
Hypothesis hq : 0 < q.
Notation A := (q * b).
Fixpoint down (n : nat) : R := match n with O => gv b q 1 | S n => gv b q (down n) end.
(** Beyond (1 + sqrt 2) b the map increases. *)
Lemma beyond x : (1 + sqrt 2) * b <= x -> 2 * b < x /\ b * b + 2 * b * x <= x * x.
Proof.
  intro h. pose proof (sqrt_lt_R0 2 ltac:(lra)) as s. pose proof (sqrt_sqrt 2 ltac:(lra)) as e.
  assert (s1 : 1 < sqrt 2) by nra. set (d := x - (1 + sqrt 2) * b). assert (hd : 0 <= d) by (unfold d; lra).
  split; [nra|]. replace x with (d + (1 + sqrt 2) * b) by (unfold d; ring).
  assert (e2 : (d + (1 + sqrt 2) * b) * (d + (1 + sqrt 2) * b) - (b * b + 2 * b * (d + (1 + sqrt 2) * b)) = d * d + 2 * sqrt 2 * (d * b) + (sqrt 2 * sqrt 2 - 2) * (b * b)) by ring.
  rewrite e in e2. assert (0 <= d * b) by nra. nra.
Qed.
Lemma gv_mono x y : (1 + sqrt 2) * b <= x -> x <= y -> gv b q x <= gv b q y.
Proof.
  intros h1 h2. destruct (beyond x h1) as [p1 p2]. assert (h3 : (1 + sqrt 2) * b <= y) by lra. destruct (beyond y h3) as [p3 p4].
  assert (e : gv b q y - gv b q x = A * ((x * y - b * (x + y) - b * b) * (y - x) / ((x * (x + b)) * (y * (y + b))))) by (unfold gv; field; lra).
  assert (hN : 0 <= x * y - b * (x + y) - b * b) by nra.
  assert (hd : 0 < (x * (x + b)) * (y * (y + b))) by (apply Rmult_lt_0_compat; nra).
  assert (0 <= A * ((x * y - b * (x + y) - b * b) * (y - x) / ((x * (x + b)) * (y * (y + b))))); [|lra].
  apply Rmult_le_pos; [nra|]. apply Rmult_le_pos; [apply Rmult_le_pos; lra|left; apply Rinv_0_lt_compat; exact hd].
Qed.
Lemma gv_root z : cubic b q z -> gv b q z = z.
Proof.
  intro h. destruct (cubic_regular b q z (proj1 hb) ltac:(lra) h) as [h1 [h2 h3]]. unfold cubic in h. unfold gv.
  assert (hn : z * (z + b) <> 0) by (apply nz_mul; assumption).
  replace (q * b * ((z - b) / (z * (z + b)))) with (q * b * (z - b) / (z * (z + b))) by (field; split; assumption).
  replace (q * b * (z - b)) with ((1 + b - z) * (z * (z + b))) by lra. field. split; assumption.
Qed.
Lemma one_beyond : (1 + sqrt 2) * b <= 1.
Proof. assert (s : sqrt 2 <= 3 / 2) by (rewrite <- (sqrt_Rsqr (3 / 2)) by lra; apply sqrt_le_1_alt; unfold Rsqr; lra). nra. Qed.
Definition poly (z : R) : R := (z - 1 - b) * (z * (z + b)) + q * b * (z - b).
Lemma poly_grows x y : 1 <= x -> x < y -> poly x < poly y.
Proof.
  intros h1 h2. assert (e : poly y - poly x = (y - x) * (x * x + x * y + y * y - (x + y) + (A - b - b * b))) by (unfold poly; ring).
  assert (hp : 0 < A) by nra. assert (0 < x * x + x * y + y * y - (x + y) + (A - b - b * b)) by nra. nra.
Qed.
Lemma poly_one : poly 1 = (gv b q 1 - 1) * - (1 + b).
Proof. unfold poly, gv. field. lra. Qed.
Lemma down_calls fl l (c : pyval R) : (forall n, (1 + sqrt 2) * b <= down n) ->
  forall n : nat, solve_state "vapor" (vapor_rhs (VNum b) (VNum q)) (vapor_rhs (VNum b) (VNum q)) fl l c (Z.of_nat n) = Ok (VNum (down n)).
Proof.
  intros hi. induction n as [|n IH].
  - unfold solve_state. cbn [String.eqb Ascii.eqb Bool.eqb Z.to_nat Z.of_nat loop]. cbn [nq Rnum]. rewrite q1, vapor_num, Reqb_no by lra. reflexivity.
  - replace (Z.of_nat (S n)) with (Z.of_nat n + 1)%Z by lia. rewrite state_vapor by lia. rewrite IH. cbn [bind].
    destruct (beyond _ (hi n)) as [h _]. rewrite vapor_num, Reqb_no by nra. reflexivity.
Qed.
Lemma vapor_descends (f : Z -> res (pyval R)) fl l c r :
  (forall n, f n = solve_state "vapor" (vapor_rhs (VNum b) (VNum q)) (vapor_rhs (VNum b) (VNum q)) fl l c n) -> cubic b q r -> (1 + sqrt 2) * b <= r ->
  exists z, settles f z /\ cubic b q z /\ (1 + sqrt 2) * b <= z /\ forall z', cubic b q z' -> z' <= z.
Proof.
  intros hf hc hr. pose proof one_beyond as h1. pose proof poly_one as hp1. pose proof (beyond r hr) as [hr2 _].
  assert (lim : forall z, settles f z -> cubic b q z).
  { intros z hs. apply (vapor_limit f); [|exact hs]. intros n hn. rewrite !hf. apply state_vapor. exact hn. }
  destruct (Rle_dec (gv b q 1) 1) as [hle|hgt].
  - assert (low : forall z', cubic b q z' -> z' <= 1).
    { intros z' h'. destruct (Rle_dec z' 1) as [o|o]; [exact o|exfalso]. pose proof (poly_grows 1 z' ltac:(lra) ltac:(lra)) as g.
      change (poly z' = 0) in h'. assert (0 <= poly 1) by nra. lra. }
    assert (inv : forall z', cubic b q z' -> (1 + sqrt 2) * b <= z' -> forall n, z' <= down n).
    { intros z' h' hz. pose proof (low z' h') as lz. induction n as [|n IH]; cbn [down]; rewrite <- (gv_root z' h') at 1; apply gv_mono; lra. }
    assert (dec : Un_decreasing down).
    { intro n. assert (d1 : down n <= 1 /\ down (S n) <= down n); [|apply d1]. induction n as [|n [I1 I2]].
      - split; [exact hle|]. cbn [down]. apply gv_mono; [|exact hle]. pose proof (inv r hc hr O) as i. cbn [down] in i. lra.
      - split; [lra|]. change (gv b q (down (S n)) <= gv b q (down n)). apply gv_mono; [|exact I2]. pose proof (inv r hc hr (S n)). lra. }
    destruct (decreasing_cv down dec) as [z hz].
    { exists (- r). intros x [n ->]. unfold opp_seq. pose proof (inv r hc hr n). lra. }
    assert (hs : settles f z).
    { apply (cv_settles f down); [|exact hz]. intro n. rewrite hf. apply down_calls. intro k. pose proof (inv r hc hr k). lra. }
    assert (hrz : r <= z) by (apply (cv_ge down z r hz); apply inv; assumption).
    exists z. split; [exact hs|]. split; [apply lim; exact hs|]. split; [lra|]. intros z' h'.
    destruct (Rle_dec ((1 + sqrt 2) * b) z') as [o|o]; [|lra]. apply (cv_ge down z z' hz). apply inv; assumption.
  - assert (neg : poly 1 < 0) by nra.
    destruct (IVT poly 1 (1 + b)) as [z [hz1 hz2]]; [unfold poly; reg|lra|exact neg| |].
    { unfold poly. replace (1 + b - 1 - b) with 0 by ring. nra. }
    assert (hz : cubic b q z) by exact hz2.
    assert (gt1 : 1 < z). { destruct (Rlt_le_dec 1 z) as [o|o]; [exact o|exfalso]. replace z with 1 in hz2 by lra. lra. }
    assert (uniq : forall z', cubic b q z' -> 1 <= z' -> z' = z).
    { intros z' h' o. change (poly z' = 0) in h'. destruct (Rtotal_order z' z) as [t|[t|t]]; [|exact t|].
      - pose proof (poly_grows z' z o t). lra. - pose proof (poly_grows z z' ltac:(lra) t). lra. }
    assert (inv : forall n, 1 <= down n <= z).
    { induction n as [|n IH]; cbn [down].
      - split; [lra|]. rewrite <- (gv_root z hz). apply gv_mono; lra.
      - split; [apply Rle_trans with (gv b q 1); [lra|apply gv_mono; lra]|]. rewrite <- (gv_root z hz). apply gv_mono; lra. }
    assert (gr : Un_growing down).
    { intro n. induction n as [|n IH].
      - change (gv b q 1 <= gv b q (down 0)). apply gv_mono; [lra|]. apply (inv O).
      - change (gv b q (down n) <= gv b q (down (S n))). apply gv_mono; [|exact IH]. pose proof (inv n). lra. }
    destruct (growing_cv down gr) as [y hy].
    { exists z. intros x [n ->]. apply inv. }
    assert (hs : settles f y).
    { apply (cv_settles f down); [|exact hy]. intro n. rewrite hf. apply down_calls. intro k. pose proof (inv k). lra. }
    assert (ey : y = z). { apply uniq; [apply lim; exact hs|]. apply (cv_ge down y 1 hy). apply inv. }
    subst y. exists z. split; [exact hs|]. split; [exact hz|]. split; [lra|]. intros z' h'. destruct (Rle_dec 1 z') as [o|o]; [right; apply uniq; assumption|lra].
Qed.
End Vapor.

(** ** The functions *)
Section Call.
Variables (tn pn : string) (T P Tc Pc : R).
Hypotheses (hT : 0 < T) (hP : 0 < P) (hTc : 0 < Tc) (hPc : 0 < Pc).
Lemma least_intro law call fv v fl b q r : 0 < b -> 0 < q -> fl (VNum b) = Ok (VNum (gl b q b)) ->
  (forall z, cubic b q z <-> compressibility law T P Tc Pc z) ->
  (forall n, call n = solve_state "liquid" fv v fl (liquid_rhs (VNum b) (VNum q)) (VNum b) n) ->
  compressibility law T P Tc Pc r -> 0 < r <= 2 / 3 -> settles_least law T P Tc Pc call.
Proof.
  intros hb hq h0 hl hc h1 h2. destruct (liquid_climbs b q hb hq call fv v fl r h0 hc (proj2 (hl r) h1) h2) as [z [k1 [k2 [k3 k4]]]].
  exists z. split; [exact k1|]. split; [apply hl; exact k2|]. split; [exact k3|]. intros z' h'. apply k4. apply hl. exact h'.
Qed.
Lemma greatest_intro law call fl l c b q r : 0 < b <= 2 / 5 -> 0 < q ->
  (forall z, cubic b q z <-> compressibility law T P Tc Pc z) ->
  (forall n, call n = solve_state "vapor" (vapor_rhs (VNum b) (VNum q)) (vapor_rhs (VNum b) (VNum q)) fl l c n) ->
  compressibility law T P Tc Pc r -> (1 + sqrt 2) * b <= r -> settles_greatest law T P Tc Pc call.
Proof.
  intros hb hq hl hc h1 h2. destruct (vapor_descends b q hb hq call fl l c r hc (proj2 (hl r) h1) h2) as [z [k1 [k2 [k3 k4]]]].
  exists z. split; [exact k1|]. split; [apply hl; exact k2|]. intros z' h'. apply k4. apply hl. exact h'.
Qed.
Lemma own b q : 0 < b -> 0 < q -> liquid_rhs (VNum b) (VNum q) (VNum b) = Ok (VNum (gl b q b)).
Proof. intros h1 h2. rewrite liquid_num, Reqb_no by nra. reflexivity. Qed.
Lemma pr_own b q : 0 < b -> 0 < q -> pr_rhs (VNum (1 + sqrt 2)) (VNum (1 - sqrt 2)) (VNum b) (VNum q) (VNum b) = Ok (VNum (gl b q b)).
Proof.
  intros h1 h2. rewrite pr_num, Reqb_no by nra. do 2 f_equal. unfold gp, gl. pose proof (sqrt_sqrt 2 ltac:(lra)) as e.
  assert (e2 : (b + (1 - sqrt 2) * b) * (b + (1 + sqrt 2) * b) = b * (b + b)); [|rewrite e2; reflexivity].
  transitivity (b * b * (4 - sqrt 2 * sqrt 2)); [ring|]. rewrite e. ring.
Qed.
Notation t := (T / Tc).
Notation b_of om := (om * (P / Pc / t)).
Lemma b_pos om : 0 < om -> 0 < b_of om.
Proof. intro h. apply Rmult_lt_0_compat; [exact h|apply hpt; assumption]. Qed.
Lemma q_pos om psi al : 0 < om -> 0 < psi -> 0 < al -> 0 < psi * al / (om * t).
Proof. intros h1 h2 h3. pose proof (ht T Tc hT hTc). apply Rdiv_lt_0_compat; apply Rmult_lt_0_compat; assumption. Qed.
Lemma rs_pos : 0 < / sqrt t.
Proof. apply Rinv_0_lt_compat, sqrt_lt_R0, ht; assumption. Qed.
Lemma sq_pos m : 1 + m * (1 - sqrt t) <> 0 -> 0 < (1 + m * (1 - sqrt t)) ^ 2.
Proof. intro h. rewrite <- Rsqr_pow2. apply Rlt_0_sqr. exact h. Qed.
Lemma rk_low z : compressibility redlich_kwong_law T P Tc Pc z -> 0 < z <= 2 / 3 ->
  settles_least redlich_kwong_law T P Tc Pc (rendlich_kwong (temp tn T) (pres pn P) (temp tn Tc) (pres pn Pc) "liquid").
Proof.
  pose proof (b_pos 0.08664 ltac:(lra)) as hb. pose proof (q_pos 0.08664 0.42748 _ ltac:(lra) ltac:(lra) rs_pos) as hq.
  eapply (least_intro _ _ _ _ _ _ _ z hb hq (own _ _ hb hq)); [intro y; apply rk_root; assumption|].
  intro n. rewrite rk_call by assumption. reflexivity.
Qed.
Lemma rk_high z : b_of 0.08664 <= 2 / 5 -> compressibility redlich_kwong_law T P Tc Pc z -> (1 + sqrt 2) * b_of 0.08664 <= z ->
  settles_greatest redlich_kwong_law T P Tc Pc (rendlich_kwong (temp tn T) (pres pn P) (temp tn Tc) (pres pn Pc) "vapor").
Proof.
  intro h. pose proof (b_pos 0.08664 ltac:(lra)) as hb. pose proof (q_pos 0.08664 0.42748 _ ltac:(lra) ltac:(lra) rs_pos) as hq.
  eapply (greatest_intro _ _ _ _ _ _ _ z (conj hb h) hq); [intro y; apply rk_root; assumption|].
  intro n. rewrite rk_call by assumption. reflexivity.
Qed.
Lemma srk_low w z : 1 + (0.480 + 1.574 * w - 0.176 * w ^ 2) * (1 - sqrt t) <> 0 -> compressibility (soave_law w) T P Tc Pc z -> 0 < z <= 2 / 3 ->
  settles_least (soave_law w) T P Tc Pc (soave_rendlich_kwong (temp tn T) (pres pn P) (temp tn Tc) (pres pn Pc) "liquid" (VNum w)).
Proof.
  intro ha. pose proof (sq_pos _ ha) as hal. pose proof (b_pos 0.08664 ltac:(lra)) as hb. pose proof (q_pos 0.08664 0.42748 _ ltac:(lra) ltac:(lra) hal) as hq.
  eapply (least_intro _ _ _ _ _ _ _ z hb hq (own _ _ hb hq)); [intro y; apply srk_root; try assumption; lra|].
  intro n. rewrite srk_call by assumption. reflexivity.
Qed.
Lemma srk_high w z : 1 + (0.480 + 1.574 * w - 0.176 * w ^ 2) * (1 - sqrt t) <> 0 -> b_of 0.08664 <= 2 / 5 ->
  compressibility (soave_law w) T P Tc Pc z -> (1 + sqrt 2) * b_of 0.08664 <= z ->
  settles_greatest (soave_law w) T P Tc Pc (soave_rendlich_kwong (temp tn T) (pres pn P) (temp tn Tc) (pres pn Pc) "vapor" (VNum w)).
Proof.
  intros ha h. pose proof (sq_pos _ ha) as hal. pose proof (b_pos 0.08664 ltac:(lra)) as hb. pose proof (q_pos 0.08664 0.42748 _ ltac:(lra) ltac:(lra) hal) as hq.
  eapply (greatest_intro _ _ _ _ _ _ _ z (conj hb h) hq); [intro y; apply srk_root; try assumption; lra|].
  intro n. rewrite srk_call by assumption. reflexivity.
Qed.
Lemma vdw_form y : cubic (b_of (1 / 8)) (27 / 64 * 1 / (1 / 8 * t)) y <-> compressibility (kwong_form (1 / 8) (27 / 64)) T P Tc Pc y.
Proof. replace (kwong_form (1 / 8) (27 / 64)) with (kwong_form (1 / 8) (27 / 64 * 1)) by (f_equal; ring). apply form_iff; try assumption; lra. Qed.
Lemma vdw_low z : compressibility (kwong_form (1 / 8) (27 / 64)) T P Tc Pc z -> 0 < z <= 2 / 3 ->
  settles_least (kwong_form (1 / 8) (27 / 64)) T P Tc Pc (van_der_waals (temp tn T) (pres pn P) (temp tn Tc) (pres pn Pc) "liquid").
Proof.
  pose proof (b_pos (1 / 8) ltac:(lra)) as hb. pose proof (q_pos (1 / 8) (27 / 64) 1 ltac:(lra) ltac:(lra) ltac:(lra)) as hq.
  eapply (least_intro _ _ _ _ _ _ _ z hb hq (own _ _ hb hq)); [exact vdw_form|].
  intro n. rewrite vdw_call by assumption. reflexivity.
Qed.
Lemma vdw_high z : b_of (1 / 8) <= 2 / 5 -> compressibility (kwong_form (1 / 8) (27 / 64)) T P Tc Pc z -> (1 + sqrt 2) * b_of (1 / 8) <= z ->
  settles_greatest (kwong_form (1 / 8) (27 / 64)) T P Tc Pc (van_der_waals (temp tn T) (pres pn P) (temp tn Tc) (pres pn Pc) "vapor").
Proof.
  intro h. pose proof (b_pos (1 / 8) ltac:(lra)) as hb. pose proof (q_pos (1 / 8) (27 / 64) 1 ltac:(lra) ltac:(lra) ltac:(lra)) as hq.
  eapply (greatest_intro _ _ _ _ _ _ _ z (conj hb h) hq); [exact vdw_form|].
  intro n. rewrite vdw_call by assumption. reflexivity.
Qed.
Lemma pr_low w z : let s := 1 + (0.37464 + 1.54226 * w - 0.26992 * w ^ 2) * (1 - sqrt t) in s <> 0 ->
  compressibility (kwong_form 0.07780 (0.45724 * s ^ 2)) T P Tc Pc z -> 0 < z <= 2 / 3 ->
  settles_least (kwong_form 0.07780 (0.45724 * s ^ 2)) T P Tc Pc (peng_robinson (temp tn T) (pres pn P) (temp tn Tc) (pres pn Pc) "liquid" (VNum w)).
Proof.
  intros s ha. pose proof (sq_pos _ ha) as hal. pose proof (b_pos 0.07780 ltac:(lra)) as hb. pose proof (q_pos 0.07780 0.45724 _ ltac:(lra) ltac:(lra) hal) as hq.
  eapply (least_intro _ _ _ _ _ _ _ z hb hq (pr_own _ _ hb hq)); [intro y; apply form_iff; try assumption; try lra; fold s in hal; lra|].
  intro n. rewrite pr_call by assumption. reflexivity.
Qed.
End Call.

(** ** A fluid with critical point 400 K and 40 bar *)
Lemma low_case : exists z, compressibility redlich_kwong_law 256 1 400 40 z /\ 0 < z <= 2 / 3.
Proof.
  assert (e : sqrt (256 / 400) = 4 / 5) by (apply sqrt_lem_1; lra).
  destruct (rk_liquid "K" "bar" 256 1 400 40) as [z [h1 [h2 _]]]; try lra; [rewrite e; lra|]. exists z. split; [exact h2|lra].
Qed.
Lemma high_case : exists z, compressibility redlich_kwong_law 400 2 400 40 z /\ (1 + sqrt 2) * (0.08664 * (2 / 40 / (400 / 400))) <= z.
Proof.
  assert (e : sqrt (400 / 400) = 1) by (apply sqrt_lem_1; lra).
  destruct (rk_gas "K" "bar" 400 2 400 40) as [z [h1 [h2 _]]]; try lra; [rewrite e; lra|]. exists z. split; [exact h2|].
  assert (s : sqrt 2 <= 3 / 2) by (rewrite <- (sqrt_Rsqr (3 / 2)) by lra; apply sqrt_le_1_alt; unfold Rsqr; lra). lra.
Qed.
