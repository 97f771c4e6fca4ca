(** * FuncErr: the carried error bounds the error *)
From Coq Require Import String List ZArith QArith Qcanon Bool Reals Qreals Lia Lra.
From Verif Require Import Py Num NumFacts UnitsData UnitsStruct Units Expr Rounding RoundSpec RoundFacts RoundErr SumSpec SumErr Func FuncSpec.
Import ListNotations.
Local Open Scope R_scope.

Section Err.
Variables u v L : R.
Hypothesis hu : 0 <= u < 1.
Hypothesis hv : 0 <= v.
Hypothesis hL : 0 <= L.
Variable a : arith.
Hypothesis ha : accurate u a.
Variable erf : R -> R.
Variable m : funs.
Hypothesis hm : accurate_fun u v L erf m.

Definition known (x y : R) (p : R * R) : Prop := fst p = x /\ 0 <= snd p /\ Rabs (y - x) <= snd p.

Lemma known_more w x y z d : 0 <= w -> 0 <= d -> Rabs (y - x) <= d -> near1 w y z -> known x z (more w x d).
Proof.
  intros hw hd h n. unfold known, more, near1 in *. cbn [fst snd]. split; [reflexivity|].
  pose proof (Rabs_pos x) as px.
  assert (e : w * Rabs y <= w * (Rabs x + d)).
  { apply Rmult_le_compat_l; [exact hw|]. replace y with (x + (y - x)) by ring. pose proof (Rabs_triang x (y - x)). lra. }
  assert (k : 0 <= w * (Rabs x + d)) by (apply Rmult_le_pos; lra).
  split; [lra|]. replace (z - x) with ((z - y) + (y - x)) by ring. pose proof (Rabs_triang (z - y) (y - x)). lra.
Qed.
Lemma k_exact x : known x x (x, 0).
Proof. unfold known. cbn. replace (x - x) with 0 by ring. rewrite Rabs_R0. lra. Qed.
Lemma k_q q : known (@nq R Rnum q) (@nq R (Fnum a) q) (@nq _ (Enum u) q).
Proof.
  cbn [nq Rnum Fnum Enum]. destruct ha as (_ & _ & _ & _ & hl & hz & _). unfold known. cbn [fst snd]. split; [reflexivity|].
  destruct (whole q) eqn:w.
  - unfold whole in w. apply andb_prop in w. destruct w as (w & w'). apply Pos.eqb_eq in w. apply Z.leb_le in w'.
    destruct q as [n d]. cbn [Qnum Qden] in *. subst d. change (n # 1) with (inject_Z n). rewrite (hz n w').
    replace (Q2R (inject_Z n)) with (IZR n) by (unfold Q2R; cbn; field). replace (IZR n - IZR n) with 0 by ring. rewrite Rabs_R0. lra.
  - split; [apply Rmult_le_pos; [lra|apply Rabs_pos]|apply hl].
Qed.
Lemma k_add x y p x' y' p' : known x y p -> known x' y' p' -> known (x + x') (a_add a y y') (e_add u p p').
Proof.
  intros (h1 & h2 & h3) (k1 & k2 & k3). unfold e_add. rewrite h1, k1. apply known_more with (y := y + y'); [lra|lra| |apply ha].
  replace (y + y' - (x + x')) with ((y - x) + (y' - x')) by ring. pose proof (Rabs_triang (y - x) (y' - x')). lra.
Qed.
Lemma k_sub x y p x' y' p' : known x y p -> known x' y' p' -> known (x - x') (a_sub a y y') (e_sub u p p').
Proof.
  intros (h1 & h2 & h3) (k1 & k2 & k3). unfold e_sub. rewrite h1, k1. apply known_more with (y := y - y'); [lra|lra| |apply ha].
  replace (y - y' - (x - x')) with ((y - x) + - (y' - x')) by ring. pose proof (Rabs_triang (y - x) (- (y' - x'))). rewrite Rabs_Ropp in *. lra.
Qed.
Lemma k_mul x y p x' y' p' : known x y p -> known x' y' p' -> known (x * x') (a_mul a y y') (e_mul u p p').
Proof.
  intros (h1 & h2 & h3) (k1 & k2 & k3). unfold e_mul. rewrite h1, k1. pose proof (Rabs_pos x) as px. pose proof (Rabs_pos x') as px'.
  pose proof (Rmult_le_pos _ _ px k2). pose proof (Rmult_le_pos _ _ px' h2). pose proof (Rmult_le_pos _ _ h2 k2).
  apply known_more with (y := y * y'); [lra| | |apply ha].
  - lra.
  - replace (y * y' - x * x') with (x * (y' - x') + (y - x) * x' + (y - x) * (y' - x')) by ring.
    pose proof (Rabs_triang (x * (y' - x') + (y - x) * x') ((y - x) * (y' - x'))) as t1.
    pose proof (Rabs_triang (x * (y' - x')) ((y - x) * x')) as t2. rewrite !Rabs_mult in t1, t2.
    assert (Rabs x * Rabs (y' - x') <= Rabs x * snd p') by (apply Rmult_le_compat_l; assumption).
    assert (Rabs (y - x) * Rabs x' <= snd p * Rabs x') by (apply Rmult_le_compat_r; assumption).
    assert (Rabs (y - x) * Rabs (y' - x') <= snd p * snd p') by (apply Rmult_le_compat; try assumption; apply Rabs_pos).
    rewrite (Rabs_mult (y - x) x') in t2. lra.
Qed.
Lemma k_nonzero x y p : known x y p -> snd p < Rabs x -> x <> 0 /\ y <> 0.
Proof.
  intros (h1 & h2 & h3) h. split; intro e.
  - rewrite e, Rabs_R0 in h. lra.
  - rewrite e in h3. replace (0 - x) with (- x) in h3 by ring. rewrite Rabs_Ropp in h3. lra.
Qed.
Lemma k_div_bound x y p x' y' p' : known x y p -> known x' y' p' -> snd p' < Rabs x' -> known (x / x') (a_div a y y') (e_div u p p').
Proof.
  intros hx hx' s. destruct (k_nonzero _ _ _ hx' s) as (n & n'). destruct hx as (h1 & h2 & h3), hx' as (k1 & k2 & k3). unfold e_div. rewrite h1, k1.
  pose proof (Rabs_pos x) as px. pose proof (Rabs_pos_lt _ n) as px'. pose proof (Rabs_pos_lt _ n') as py'.
  set (X := Rabs x) in *. set (X' := Rabs x') in *. set (d := snd p) in *. set (d' := snd p') in *.
  assert (low : X' - d' <= Rabs y').
  { pose proof (Rabs_triang_inv x' y') as t. rewrite <- Rabs_Ropp in k3. replace (- (y' - x')) with (x' - y') in k3 by ring. fold X' in t. lra. }
  assert (pos : 0 < X' - d') by lra.
  assert (ok : Rabs (y / y' - x / x') <= (X + d) / (X' - d') - X / X').
  { replace (y / y' - x / x') with (((y - x) * x' + - (x * (y' - x'))) / (y' * x')) by (field; split; assumption).
    unfold Rdiv at 1. rewrite Rabs_mult, Rabs_inv, Rabs_mult. fold X'.
    replace ((X + d) / (X' - d') - X / X') with ((d * X' + X * d') / ((X' - d') * X')) by (field; split; lra).
    unfold Rdiv. apply Rmult_le_compat.
    - apply Rabs_pos.
    - left. apply Rinv_0_lt_compat, Rmult_lt_0_compat; assumption.
    - pose proof (Rabs_triang ((y - x) * x') (- (x * (y' - x')))) as t. rewrite Rabs_Ropp, (Rabs_mult (y - x)), (Rabs_mult x) in t. fold X X' in t.
      assert (Rabs (y - x) * X' <= d * X') by (apply Rmult_le_compat_r; [lra|assumption]).
      assert (X * Rabs (y' - x') <= X * d') by (apply Rmult_le_compat_l; assumption). lra.
    - apply Rinv_le_contravar; [apply Rmult_lt_0_compat; assumption|]. apply Rmult_le_compat_r; [lra|exact low]. }
  apply known_more with (y := y / y'); [lra| |exact ok|apply ha; exact n'].
  apply Rle_trans with (2 := ok). apply Rabs_pos.
Qed.
Lemma may_zero p : may_be_equal p (@nq _ (Enum u) 0%Q) = false -> snd p < Rabs (fst p).
Proof.
  unfold may_be_equal. cbn [nq Enum fst snd]. change (whole 0) with true. cbn iota. replace (Q2R 0) with 0 by (unfold Q2R; cbn; field).
  rewrite Rminus_0_r. destruct (Rle_dec _ _) as [l|l]; [discriminate|]. intros _. lra.
Qed.
Lemma k_div x y p x' y' p' : known x y p -> known x' y' p' ->
  rr true known (@pydiv R Rnum x x') (@pydiv R (Fnum a) y y') (@pydiv _ (Enum u) p p').
Proof.
  intros h h'. unfold pydiv at 3. cbn [neqb ndiv Enum]. destruct (may_be_equal p' (nq 0)) eqn:e; [apply rr_lax; reflexivity|].
  apply may_zero in e. rewrite (proj1 h') in e. destruct (k_nonzero _ _ _ h' e) as (n & n').
  unfold pydiv. cbn [neqb ndiv nq Rnum Fnum]. rewrite (lit_0 u a ha).
  replace (Q2R 0) with 0 by (unfold Q2R; cbn; field). rewrite (proj2 (Reqb_false x' 0) n), (proj2 (Reqb_false y' 0) n').
  apply rr_ok, k_div_bound; assumption.
Qed.
Lemma k_pow q x y p : known x y p -> rr true known (@npow R Rnum x q) (@npow R (Fnum a) y q) (@npow _ (Enum u) p q).
Proof.
  intros (h1 & h2 & h3). cbn [npow Rnum Fnum Enum]. unfold e_pow. rewrite h1.
  pose proof (fun x => proj2 (proj2 (proj2 (proj2 (proj2 (proj2 ha))))) x q) as hp.
  destruct (Reqb (snd p) 0) eqn:z.
  - apply Reqb_true in z. assert (y = x) by (rewrite z in h3; pose proof (Rabs_pos (y - x)); destruct (Req_dec (y - x) 0) as [e|e]; [lra|apply Rabs_pos_lt in e; lra]).
    subst y. specialize (hp x). destruct (Rpowq x q) as [w|e]; cbn [bind].
    + destruct hp as (w' & -> & hw). apply rr_ok. apply known_more with (y := w); [lra|lra| |exact hw]. replace (w - w) with 0 by ring. rewrite Rabs_R0. lra.
    + rewrite hp. apply rr_raise.
  - destruct (Rltb (snd p) (Rabs x)) eqn:l; [|destruct (Rpowq x q); cbn [bind]; apply rr_lax; reflexivity].
    apply Rltb_true in l. apply Reqb_false in z. assert (X : 0 < Rabs x) by lra. set (r := snd p / Rabs x).
    assert (hr : 0 <= r < 1).
    { unfold r. split; [apply Rmult_le_pos; [exact h2|left; apply Rinv_0_lt_compat, X]|]. apply (Rmult_lt_reg_r (Rabs x)); [exact X|]. unfold Rdiv. rewrite Rmult_assoc, Rinv_l by lra. lra. }
    assert (wi : within r 1 x y).
    { apply near_within; [exact hr|]. unfold near1, r, Rdiv. rewrite Rmult_assoc, Rinv_l by lra. lra. }
    pose proof (within_Rpow r hr 1 x y q wi) as k. rewrite Nat.mul_1_r in k. specialize (hp y).
    destruct (Rpowq x q) as [w|e], (Rpowq y q) as [w'|e']; try contradiction; cbn [bind].
    + destruct hp as (w2 & -> & hw). apply rr_ok. pose proof (base_inv r hr (repeats q)) as b1. pose proof (base_le1 r hr (repeats q)) as b2. pose proof (base_pos r hr (repeats q)) as b3.
      apply known_more with (y := w'); [lra| | |exact hw].
      * apply Rmult_le_pos; [apply Rabs_pos|]. fold r. lra.
      * destruct k as (f & hf & ->). replace (w * f - w) with (w * (f - 1)) by ring. rewrite Rabs_mult. apply Rmult_le_compat_l; [apply Rabs_pos|]. fold r.
        apply Rabs_le. split; [|lra].
        assert (1 - / (1 - r) ^ repeats q <= (1 - r) ^ repeats q - 1 \/ True) by tauto.
        assert (g : 2 <= (1 - r) ^ repeats q + / (1 - r) ^ repeats q).
        { set (b := (1 - r) ^ repeats q) in *. assert (hb : b * / b = 1) by (apply Rinv_r; lra). pose proof (Rle_0_sqr (1 - b)) as s. unfold Rsqr in s.
          apply (Rmult_le_reg_l b); [exact b3|]. rewrite Rmult_plus_distr_l, hb. lra. }
        lra.
    + subst e'. rewrite hp. apply rr_raise.
Qed.
Lemma k_opp x y p : known x y p -> known (- x) (- y) (- fst p, snd p).
Proof.
  intros (h1 & h2 & h3). unfold known. cbn [fst snd]. rewrite h1. split; [reflexivity|]. split; [exact h2|].
  replace (- y - - x) with (- (y - x)) by ring. rewrite Rabs_Ropp. exact h3.
Qed.
Lemma k_exp x y p : known x y p -> known (exp x) (m_exp m y) (@fexp _ (Efn u v L erf) p).
Proof.
  intros (h1 & h2 & h3). cbn [fexp Efn]. rewrite h1. destruct hm as (_ & he & _).
  assert (e : Rabs (exp y - exp x) <= exp x * (exp (snd p) - 1)).
  { replace (exp y - exp x) with (exp x * (exp (y - x) - 1)) by (unfold Rminus; rewrite exp_plus, exp_Ropp; pose proof (exp_pos x); field; lra).
    rewrite Rabs_mult, (Rabs_pos_eq (exp x)) by (left; apply exp_pos). apply Rmult_le_compat_l; [left; apply exp_pos|].
    apply Rabs_le_inv in h3. set (t := y - x) in *.
    assert (exp t <= exp (snd p)) by (destruct (Req_dec t (snd p)) as [->|]; [lra|left; apply exp_increasing; lra]).
    pose proof (exp_ineq1_le t) as i. assert (i2 : 1 + snd p <= exp (snd p)) by apply exp_ineq1_le.
    apply Rabs_le. lra. }
  apply known_more with (y := exp y); [exact hv| |exact e|apply he]. apply Rle_trans with (2 := e). apply Rabs_pos.
Qed.
Lemma k_log x y p : known x y p -> rr true known (Rlog ln x) (Rlog (m_log m) y) (@flog _ (Efn u v L erf) p).
Proof.
  intros (h1 & h2 & h3). cbn [flog Efn]. rewrite h1. destruct (Rltb (snd p) x) eqn:l; [|apply rr_lax; reflexivity].
  apply Rltb_true in l. apply Rabs_le_inv in h3. assert (px : 0 < x) by lra. assert (py : 0 < y) by lra.
  unfold Rlog. rewrite (proj2 (Rltb_true 0 x) px), (proj2 (Rltb_true 0 y) py). apply rr_ok.
  set (r := snd p / x). assert (er : r * x = snd p) by (unfold r; field; lra).
  assert (hr : 0 <= r < 1).
  { split; [apply Rmult_le_pos; [exact h2|left; apply Rinv_0_lt_compat, px]|]. apply (Rmult_lt_reg_r x); [exact px|]. lra. }
  assert (e : Rabs (ln y - ln x) <= - ln (1 - r)).
  { assert (hq : 0 < y / x) by (apply Rdiv_lt_0_compat; assumption).
    replace (ln y - ln x) with (ln (y / x)) by (unfold Rdiv; rewrite ln_mult, ln_Rinv; [ring|exact px|exact py|apply Rinv_0_lt_compat, px]).
    assert (lo : 1 - r <= y / x) by (apply (Rmult_le_reg_r x); [exact px|]; unfold Rdiv; rewrite (Rmult_assoc y), Rinv_l, Rmult_1_r, Rmult_minus_distr_r, er; lra).
    assert (hi : y / x <= / (1 - r)).
    { apply Rle_trans with (1 + r).
      - apply (Rmult_le_reg_r x); [exact px|]; unfold Rdiv; rewrite (Rmult_assoc y), Rinv_l, Rmult_1_r, Rmult_plus_distr_r, er; lra.
      - apply (Rmult_le_reg_r (1 - r)); [lra|]. rewrite Rinv_l by lra. pose proof (Rle_0_sqr r) as s. unfold Rsqr in s. lra. }
    assert (mono : forall p q, 0 < p -> p <= q -> ln p <= ln q) by (intros s t hs [ht|<-]; [left; apply ln_increasing; assumption|lra]).
    apply Rabs_le. split; [rewrite Ropp_involutive; apply mono; lra|]. rewrite <- ln_Rinv by lra. apply mono; lra. }
  apply known_more with (y := ln y); [exact hv| |exact e|apply hm, py]. apply Rle_trans with (2 := e). apply Rabs_pos.
Qed.
Lemma sin_lip x y : Rabs (sin y - sin x) <= Rabs (y - x).
Proof.
  assert (k : forall s t, s < t -> Rabs (sin t - sin s) <= Rabs (t - s)).
  { intros s t h. destruct (MVT_cor2 sin cos s t h) as (c & e & _); [intros; apply derivable_pt_lim_sin|].
    rewrite e, Rabs_mult. rewrite <- (Rmult_1_l (Rabs (t - s))) at 2. apply Rmult_le_compat_r; [apply Rabs_pos|].
    apply Rabs_le. pose proof (COS_bound c). lra. }
  destruct (Rtotal_order x y) as [h|[->|h]].
  - apply k, h.
  - unfold Rminus. rewrite !Rplus_opp_r. lra.
  - rewrite (Rabs_minus_sym (sin y)), (Rabs_minus_sym y). apply k, h.
Qed.
Lemma k_sin x y p : known x y p -> known (sin x) (m_sin m y) (@fsin _ (Efn u v L erf) p).
Proof.
  intros (h1 & h2 & h3). cbn [fsin Efn]. rewrite h1. apply known_more with (y := sin y); [exact hv|exact h2| |apply hm].
  pose proof (sin_lip x y). lra.
Qed.
Lemma k_erf x y p : known x y p -> known (erf x) (m_erf m y) (@ferf _ (Efn u v L erf) p).
Proof.
  intros (h1 & h2 & h3). cbn [ferf Efn]. rewrite h1. destruct hm as (_ & _ & _ & _ & he & hl).
  apply known_more with (y := erf y); [exact hv|apply Rmult_le_pos; assumption| |apply he].
  apply Rle_trans with (1 := hl x y). apply Rmult_le_compat_l; assumption.
Qed.
Lemma k_pi : known PI (m_pi m) (PI, u * PI).
Proof.
  unfold known. cbn [fst snd]. split; [reflexivity|]. pose proof PI_RGT_0 as pp. split; [apply Rmult_le_pos; lra|].
  destruct hm as (h & _). unfold near1 in h. rewrite (Rabs_pos_eq PI) in h by lra. exact h.
Qed.

Inductive env_known : list (pyval R) -> list (pyval R) -> list (pyval (R * R)) -> Prop :=
| EKnil : env_known [] [] []
| EKcons x y z l l' l'' : relv known x y z -> env_known l l' l'' -> env_known (x :: l) (y :: l') (z :: l'').
Lemma leaf_known x : relv known x x (eleaf x).
Proof. destruct x as [x| | |w|w]; cbn; try exact I; try apply k_exact; repeat (split; [reflexivity|]); apply k_exact. Qed.
Lemma rr_on f g k x y z : (forall x y z, known x y z -> rr true known (f x) (g y) (k z)) ->
  relv known x y z -> rr true (relv known) (on_number f x) (on_number g y) (on_number k z).
Proof.
  intros h r. destruct x, y, z; cbn [relv] in r; try contradiction; cbn [on_number]; try apply rr_raise.
  eapply rr_rmap; [apply h, r|]. intros ? ? ? p. exact p.
Qed.
Lemma run_known t : forall l l' l'', env_known l l' l'' ->
  rr true (relv known) (@teval R Rnum (Rfn erf) (fun x => x) l t) (@teval R (Fnum a) (Ffn m) (fun x => x) l' t)
    (@teval _ (Enum u) (Efn u v L erf) eleaf l'' t).
Proof.
  induction t as [x| |n|s IHs t IHt|s IHs t IHt|s IHs t IHt|s IHs t IHt|s IHs t IHt|s IHs k|s IHs|s IHs|s IHs|s IHs|s IHs]; intros l l' l'' hl; cbn [teval];
    try (eapply rr_bind; [apply IHs, hl|]; intros x y z hx);
    try (eapply rr_bind; [apply IHt, hl|]; intros x' y' z' hx').
  - apply rr_ok, leaf_known.
  - apply rr_ok. exact k_pi.
  - revert n. induction hl as [|x y z l l' l'' h hl IH]; intro n; [destruct n; apply rr_raise|]. destruct n; [apply rr_ok, h|apply IH].
  - apply IHt. constructor; assumption.
  - apply (@rr_mul _ _ _ Rnum (Fnum a) (Enum u) true known (fun _ => True)); auto using k_q, k_div, k_pow. intros. apply k_mul; assumption.
  - apply (@rr_divide _ _ _ Rnum (Fnum a) (Enum u) true known (fun _ => True)); auto using k_q, k_div, k_pow. intros. apply k_mul; assumption.
  - apply (@rr_add _ _ _ Rnum (Fnum a) (Enum u) true known); auto. intros. apply k_add; assumption.
  - apply (@wk_sub _ _ _ Rnum (Fnum a) (Enum u) true known); auto. intros. apply k_sub; assumption.
  - apply (@rr_power _ _ _ Rnum (Fnum a) (Enum u) true known); auto using k_pow.
  - apply (@rr_neg _ _ _ Rnum (Fnum a) (Enum u) true known); auto. intros. apply k_opp; assumption.
  - apply rr_on; [|exact hx]. intros. apply rr_ok, k_exp; assumption.
  - apply rr_on; [|exact hx]. intros. apply k_log; assumption.
  - apply rr_on; [|exact hx]. intros. apply rr_ok, k_sin; assumption.
  - apply rr_on; [|exact hx]. intros. apply rr_ok, k_erf; assumption.
Qed.
Lemma formula_error t d : error_bound u v L erf t = Some d -> same_outcome (apart d) (exact erf t) (floats a m t).
Proof.
  intro h. pose proof (run_known t [] [] [] EKnil) as k. unfold exact, floats, error_bound in *.
  destruct (@teval _ (Enum u) (Efn u v L erf) eleaf [] t) as [z|e]; [|discriminate].
  inversion k as [x y z' hx e1 e2 e3|e c e1 e2 e3|]; subst; [|reflexivity]. cbn [same_outcome].
  destruct x as [x| | |w|w], y as [y| | |w'|w'], z as [z| | |z|z]; cbn [relv] in hx; try contradiction; cbn [same_but]; injection h as h; subst d; try exact I.
  - apply hx.
  - destruct hx as (c1 & c2 & c3 & c4 & c5 & c6 & hx). repeat split; try congruence. apply hx.
  - destruct hx as (c1 & c2 & c3 & c4 & c5 & c6 & hx). repeat split; try congruence. apply hx.
Qed.
End Err.
