(** * SumRangeFacts: sums and differences in binary64 *)
From Coq Require Import String List ZArith QArith Qcanon Bool Reals Qreals Lia Lra.
From Coq Require Import Floats.SpecFloat.
From Verif Require Import Py Num NumFacts UnitsData UnitsStruct Units Expr Rounding RoundSpec RoundFacts RoundErr RoundCases.
From Verif Require Import Range RangeSpec FloatExp FloatRound B64Facts RangeFacts PrintSpec B64Spec B64Round B64Full SumSpec SumErr SumRange.
Import ListNotations.
Local Open Scope list_scope.
Local Open Scope R_scope.
Local Notation p2 := (powerRZ 2).

Lemma steady_tame e : steady e -> tame e.
Proof.
  induction e as [v|e IHe f IHf|e IHe f IHf|e IHe f IHf|e IHe f IHf|e IHe k|e IHe]; cbn [steady tame]; try tauto.
Qed.

(** ** Unsigned values and sizes in one run *)
Definition total_pow (z : R) (q : Qc) : R := match Rpowq z q with Ok v => v | Raise _ => 0 end.
Definition Pnum (allowed : Qc -> bool) : Num (R * size) := {|
  nadd := fun p q => (fst p + fst q, @nadd size (Tnum allowed) (snd p) (snd q));
  nsub := fun p q => (fst p + fst q, @nadd size (Tnum allowed) (snd p) (snd q));
  nmul := fun p q => (fst p * fst q, s_prod (snd p) (snd q));
  ndiv := fun p q => (fst p / fst q, s_prod (snd p) (snd q));
  nopp := fun p => p;
  nq := fun q => (Q2R q, @nq size (Tnum allowed) q);
  neqb := fun p q => @neqb size (Tnum allowed) (snd p) (snd q);
  nltb := fun p q => false;
  npow := fun p q => match @npow size (Tnum allowed) (snd p) q with Ok s => Ok (total_pow (fst p) q, s) | Raise e => Raise e end |}.
Section Allowed.
Variable allowed : Qc -> bool.
Notation PN := (Pnum allowed).
Notation TN := (Tnum allowed).
Variable sz : R -> Z.
Definition pleaf (v : pyval R) : pyval (R * size) := pv_map (fun x => (Rabs x, guard 0 (sz x))) v.

Definition sizes (s s' : size) (p : R * size) : Prop := s' = s /\ snd p = s.
Lemma sizes_run e : rr false (relv sizes) (@geval size TN (pv_map (fun x => guard 0 (sz x))) e) (@geval size TN (pv_map (fun x => guard 0 (sz x))) e) (@geval _ PN pleaf e).
Proof.
  assert (lit : forall q, True -> sizes (@nq _ TN q) (@nq _ TN q) (@nq _ PN q)) by (intros; split; reflexivity).
  assert (mul : forall x y z x' y' z', sizes x y z -> sizes x' y' z' -> sizes (@nmul _ TN x x') (@nmul _ TN y y') (@nmul _ PN z z')).
  { intros x y (v, z) x' y' (v', z') (-> & <-) (-> & <-). split; reflexivity. }
  assert (div : forall x y z x' y' z', sizes x y z -> sizes x' y' z' -> rr false sizes (@pydiv _ TN x x') (@pydiv _ TN y y') (@pydiv _ PN z z')).
  { intros x y (v, z) x' y' (v', z') (-> & <-) (-> & <-). unfold pydiv. cbn [neqb TN PN snd Tnum Pnum Range.Snum]. destruct z'; [apply rr_ok; split; reflexivity|apply rr_raise]. }
  assert (pow : forall q x y z, sizes x y z -> rr false sizes (@npow _ TN x q) (@npow _ TN y q) (@npow _ PN z q)).
  { intros q x y (v, z) (-> & <-). cbn [npow PN Pnum snd fst]. destruct (@npow _ TN z q); [apply rr_ok; split; reflexivity|apply rr_raise]. }
  assert (add : forall x y z x' y' z', sizes x y z -> sizes x' y' z' -> sizes (@nadd _ TN x x') (@nadd _ TN y y') (@nadd _ PN z z')).
  { intros x y (v, z) x' y' (v', z') (-> & <-) (-> & <-). split; reflexivity. }
  induction e as [v|e IHe f IHf|e IHe f IHf|e IHe f IHf|e IHe f IHf|e IHe k|e IHe]; cbn [geval].
  - apply rr_ok. destruct v as [x| | |w|m]; cbn; unfold relu, relm, sizes; cbn; repeat split.
  - eapply rr_bind; [apply IHe|]. intros x y z hx. eapply rr_bind; [apply IHf|]. intros x' y' z' hx'.
    apply (@rr_mul _ _ _ TN TN PN false sizes (fun _ => True)); auto.
  - eapply rr_bind; [apply IHe|]. intros x y z hx. eapply rr_bind; [apply IHf|]. intros x' y' z' hx'.
    apply (@rr_divide _ _ _ TN TN PN false sizes (fun _ => True)); auto.
  - eapply rr_bind; [apply IHe|]. intros x y z hx. eapply rr_bind; [apply IHf|]. intros x' y' z' hx'.
    apply (@rr_add _ _ _ TN TN PN false sizes); auto.
  - eapply rr_bind; [apply IHe|]. intros x y z hx. eapply rr_bind; [apply IHf|]. intros x' y' z' hx'.
    apply (@wk_sub _ _ _ TN TN PN false sizes); auto.
  - eapply rr_bind; [apply IHe|]. intros x y z hx. apply (@rr_power _ _ _ TN TN PN false sizes); auto.
  - eapply rr_bind; [apply IHe|]. intros x y z hx. apply (@rr_neg _ _ _ TN TN PN false sizes); auto.
Qed.

Notation SN := SumSpec.Snum.
Definition bulks (z z' : R) (p : R * size) : Prop := z' = z /\ fst p = z.
Lemma bulks_run e : rr true (relv bulks) (@geval R SN unsigned e) (@geval R SN unsigned e) (@geval _ PN pleaf e).
Proof.
  assert (lit : forall q, True -> bulks (@nq _ SN q) (@nq _ SN q) (@nq _ PN q)) by (intros; split; reflexivity).
  assert (mul : forall x y z x' y' z', bulks x y z -> bulks x' y' z' -> bulks (@nmul _ SN x x') (@nmul _ SN y y') (@nmul _ PN z z')).
  { intros x y (v, z) x' y' (v', z') (-> & <-) (-> & <-). split; reflexivity. }
  assert (div : forall x y z x' y' z', bulks x y z -> bulks x' y' z' -> rr true bulks (@pydiv _ SN x x') (@pydiv _ SN y y') (@pydiv _ PN z z')).
  { intros x y (v, z) x' y' (v', z') (-> & <-) (-> & <-). unfold pydiv. cbn [neqb SN SumSpec.Snum PN snd Tnum Pnum Range.Snum fst].
    destruct (Reqb _ _); [apply rr_raise|]. destruct z'; [apply rr_ok; split; reflexivity|apply rr_lax; reflexivity]. }
  assert (pow : forall q x y z, bulks x y z -> rr true bulks (@npow _ SN x q) (@npow _ SN y q) (@npow _ PN z q)).
  { intros q x y (v, z) (-> & <-). cbn [npow PN Pnum snd fst SN SumSpec.Snum]. unfold total_pow. destruct (Rpowq v q); [|apply rr_raise].
    destruct (@npow _ TN z q); [apply rr_ok; split; reflexivity|apply rr_lax; reflexivity]. }
  assert (add : forall x y z x' y' z', bulks x y z -> bulks x' y' z' -> bulks (@nadd _ SN x x') (@nadd _ SN y y') (@nadd _ PN z z')).
  { intros x y (v, z) x' y' (v', z') (-> & <-) (-> & <-). split; reflexivity. }
  induction e as [v|e IHe f IHf|e IHe f IHf|e IHe f IHf|e IHe f IHf|e IHe k|e IHe]; cbn [geval].
  - apply rr_ok. destruct v as [x| | |w|m]; cbn; unfold relu, relm, bulks; cbn; repeat split.
  - eapply rr_bind; [apply IHe|]. intros x y z hx. eapply rr_bind; [apply IHf|]. intros x' y' z' hx'.
    apply (@rr_mul _ _ _ SN SN PN true bulks (fun _ => True)); auto.
  - eapply rr_bind; [apply IHe|]. intros x y z hx. eapply rr_bind; [apply IHf|]. intros x' y' z' hx'.
    apply (@rr_divide _ _ _ SN SN PN true bulks (fun _ => True)); auto.
  - eapply rr_bind; [apply IHe|]. intros x y z hx. eapply rr_bind; [apply IHf|]. intros x' y' z' hx'.
    apply (@rr_add _ _ _ SN SN PN true bulks); auto.
  - eapply rr_bind; [apply IHe|]. intros x y z hx. eapply rr_bind; [apply IHf|]. intros x' y' z' hx'.
    apply (@wk_sub _ _ _ SN SN PN true bulks); auto.
  - eapply rr_bind; [apply IHe|]. intros x y z hx. apply (@rr_power _ _ _ SN SN PN true bulks); auto.
  - eapply rr_bind; [apply IHe|]. intros x y z hx. apply (@rr_neg _ _ _ SN SN PN true bulks); auto.
Qed.

(** ** The run in binary64 *)
Variables (u : R) (p : spec_float -> Qc -> res spec_float).
Hypothesis hu : / 2 ^ 53 + / 2 ^ 75 <= u <= / 2 ^ 40.
Hypothesis hp : pow_good u allowed p.
Notation BN := (Bpow p).
Lemma hu' : / 2 ^ 53 <= u <= / 2 ^ 40.
Proof. assert (0 < / 2 ^ 75) by (apply Rinv_0_lt_compat, pow_lt; lra). lra. Qed.
Let v01 := u01 u hu'.

Lemma p2_inv n : p2 (- Z.of_nat n) = / 2 ^ n.
Proof. rewrite p2_opp, <- pow_powerRZ. reflexivity. Qed.
Lemma g_2 n : (Z.of_nat n <= 1000000)%Z -> 1 <= g u n <= 2.
Proof.
  intro h. split; [apply (g_1 u v01)|]. unfold g. pose proof (drift u hu' n h) as d. replace 2 with (/ / 2) by field. apply Rinv_le_contravar; lra.
Qed.
Lemma step n k z x v w : (k <= 1000)%Z -> (Z.of_nat n <= 1000000)%Z -> Rabs x <= z -> sized k z -> off u n z x v ->
  rounded64 v w /\ slight v w -> finite64 w /\ off u (S n) z x (SFR w).
Proof.
  intros hk hn hz hs h (r1 & r2). pose proof (g_2 n hn) as gn.
  pose proof (loose_y u x v (z, n) (conj hz h)) as hv. cbn [fst snd] in hv. pose proof (Rabs_pos x). pose proof (Rabs_pos v).
  assert (top : Rabs v < top64).
  { apply Rle_lt_trans with (2 * p2 1000).
    - apply Rle_trans with (1 := hv). apply Rmult_le_compat; try lra. destruct hs as [->|(_ & s)]; [left; apply p2_gt|].
      rewrite Rabs_pos_eq in s by lra. apply Rle_trans with (1 := s). apply p2_le. lia.
    - apply Rlt_le_trans with (p2 1023).
      + apply Rlt_le_trans with (p2 (1 + 1 + 1000)); [rewrite !p2_add, p2_1; pose proof (p2_gt 1000); lra|apply p2_le; lia].
      + unfold top64. change 1023%Z with (53 + 970)%Z. rewrite p2_add. apply Rmult_le_compat_r; [left; apply p2_gt|]. rewrite p2_nonneg by lia. apply IZR_le. lia. }
  apply proj1 in r1. change limit64 with top64 in r1. specialize (r1 top). specialize (r2 top). split; [apply r1|].
  assert (e : Rabs (SFR w - v) <= u * (g u n * z)).
  { destruct (Req_dec z 0) as [z0|z0].
    - subst z. assert (v0 : v = 0) by (destruct (Req_dec v 0) as [|q]; [assumption|apply Rabs_pos_lt in q; lra]). subst v.
      destruct r1 as (_ & _ & r1 & _). specialize (r1 (S754_zero false) I). cbn [SFR] in r1. rewrite !Rminus_0_r, Rabs_R0 in *. lra.
    - destruct hs as [|(s & _)]; [contradiction|]. rewrite Rabs_pos_eq in s by lra.
      assert (t : p2 (-1075) <= / 2 ^ 75 * z).
      { apply Rle_trans with (/ 2 ^ 75 * p2 (-1000)).
        - right. change (-1075)%Z with (- Z.of_nat 75 + -1000)%Z. rewrite p2_add, p2_inv. reflexivity.
        - apply Rmult_le_compat_l; [left; apply Rinv_0_lt_compat, pow_lt; lra|]. apply Rle_trans with (2 := s). apply p2_le. lia. }
      assert (i53 : 0 < / 2 ^ 53) by (apply Rinv_0_lt_compat, pow_lt; lra). assert (i75 : 0 < / 2 ^ 75) by (apply Rinv_0_lt_compat, pow_lt; lra).
      apply Rle_trans with (1 := r2). assert (/ 2 ^ 53 * Rabs v <= / 2 ^ 53 * (g u n * z)) by (apply Rmult_le_compat_l; lra).
      assert (z <= g u n * z) by nra. assert (/ 2 ^ 75 * z <= / 2 ^ 75 * (g u n * z)) by (apply Rmult_le_compat_l; lra).
      assert ((/ 2 ^ 53 + / 2 ^ 75) * (g u n * z) <= u * (g u n * z)) by (apply Rmult_le_compat_r; lra). lra. }
  unfold off in *. fold (g u n) in h. fold (g u (S n)).
  replace (SFR w - x) with ((SFR w - v) + (v - x)) by ring. pose proof (Rabs_triang (SFR w - v) (v - x)).
  assert (e1 : g u (S n) = g u 1 * g u n) by (rewrite <- g_add; reflexivity). rewrite e1. pose proof (g_one u v01).
  assert ((1 + u) * (g u n * z) <= g u 1 * (g u n * z)) by (apply Rmult_le_compat_r; [apply Rmult_le_pos; lra|lra]).
  nra.
Qed.

Definition tightb (x : R) (y : spec_float) (s : R * size) : Prop := fst s = Rabs x /\ rel u false x y (snd s).
Definition ptightb (x : R) (y : spec_float) (s : R * size) : Prop := 0 < x /\ fst s = x /\ rel u true x y (snd s).
Definition looseb (x : R) (y : spec_float) (s : R * size) : Prop :=
  Rabs x <= fst s /\
  match snd s with
  | None => True
  | Some (n, k) => finite64 y /\ off u n (fst s) x (SFR y) /\ sized k (fst s) /\ (0 <= k <= 1000)%Z /\ (Z.of_nat n <= 1000000)%Z
  end.
Lemma ptightb_tightb x y s : ptightb x y s -> tightb x y s.
Proof.
  intros (h & e & k). split; [rewrite e, Rabs_pos_eq; lra|]. destruct (snd s) as [(n, j)|]; [|exact I]. cbn [rel] in *. intuition discriminate.
Qed.
Lemma sized_abs k x : sized k x -> sized k (Rabs x).
Proof. intros [->|h]; [left; apply Rabs_R0|right; rewrite Rabs_Rabsolu; exact h]. Qed.
Lemma tightb_looseb x y s : tightb x y s -> looseb x y s.
Proof.
  intros (e & h). split; [lra|]. destruct (snd s) as [(n, k)|]; [|exact I]. destruct h as (f & w & z & hk & hn & _).
  split; [exact f|]. split; [|split; [rewrite e; apply sized_abs, z|auto]].
  apply (tight_loose u v01 x (SFR y) (fst s, n)). split; assumption.
Qed.
Lemma tb_q q : (0 < q)%Q -> tightb (@nq R Rnum q) (@nq _ BN q) (@nq _ PN q).
Proof.
  intro h. split; [|apply (r_lit u allowed p hu'); discriminate]. cbn. apply Qlt_Rlt in h. rewrite q2r_0 in h. rewrite Rabs_pos_eq; lra.
Qed.
Lemma tb_mul x y z x' y' z' : tightb x y z -> tightb x' y' z' -> tightb (@nmul R Rnum x x') (@nmul _ BN y y') (@nmul _ PN z z').
Proof.
  intros (e & k) (e' & k'). split; [cbn; rewrite Rabs_mult; congruence|]. exact (r_mul u allowed p hu' false x y (snd z) x' y' (snd z') k k').
Qed.
Lemma tb_div x y z x' y' z' : tightb x y z -> tightb x' y' z' -> rr true tightb (@pydiv R Rnum x x') (@pydiv _ BN y y') (@pydiv _ PN z z').
Proof.
  intros (e & k) (e' & k'). pose proof (r_div u allowed p hu' false x y (snd z) x' y' (snd z') k k') as d.
  unfold pydiv in *. cbn [neqb nq Rnum Bpow Pnum Tnum Range.Snum ndiv fst snd] in *. destruct (snd z') as [(n', k'')|]; [|apply rr_lax; reflexivity].
  inversion d as [a b c h ea eb ec|er c ea eb|]; subst; [|apply rr_raise].
  apply rr_ok. destruct (Reqb x' (Q2R 0)); [discriminate|]. destruct (SFeqb _ _); [discriminate|]. injection ea as ->. injection eb as ->. split; [|exact h].
  cbn [fst]. rewrite e, e'. unfold Rdiv. rewrite Rabs_mult, Rabs_inv. reflexivity.
Qed.
Lemma tb_pow q x y z : tightb x y z -> rr true tightb (@npow R Rnum x q) (@npow _ BN y q) (@npow _ PN z q).
Proof.
  intros (e & k). pose proof (r_pow u allowed p hu' hp false q x y (snd z) k) as d. cbn [npow Pnum]. change (@npow size TN (snd z) q) with (@npow size (Range.Snum allowed) (snd z) q).
  remember (@npow R Rnum x q) as A eqn:ea. remember (@npow _ BN y q) as B eqn:eb. remember (@npow size (Range.Snum allowed) (snd z) q) as C eqn:ec.
  destruct d as [a b c h|er c|a b er _].
  - apply rr_ok. split; [|exact h]. cbn [fst]. rewrite e. unfold total_pow. cbn [npow Rnum] in ea. rewrite (abs_pow x q a (eq_sym ea)). reflexivity.
  - apply rr_raise.
  - apply rr_lax. reflexivity.
Qed.
Lemma ptb_q q : (0 < q)%Q -> ptightb (@nq R Rnum q) (@nq _ BN q) (@nq _ PN q).
Proof.
  intro h. assert (0 < Q2R q) by (apply Qlt_Rlt in h; rewrite q2r_0 in h; exact h). split; [assumption|]. split; [reflexivity|]. apply (r_lit u allowed p hu'). auto.
Qed.
Lemma ptb_mul x y z x' y' z' : ptightb x y z -> ptightb x' y' z' -> ptightb (@nmul R Rnum x x') (@nmul _ BN y y') (@nmul _ PN z z').
Proof.
  intros (h & e & k) (h' & e' & k'). split; [apply Rmult_lt_0_compat; assumption|]. split; [cbn; congruence|]. exact (r_mul u allowed p hu' true x y (snd z) x' y' (snd z') k k').
Qed.
Lemma ptb_div x y z x' y' z' : ptightb x y z -> ptightb x' y' z' -> rr true ptightb (@pydiv R Rnum x x') (@pydiv _ BN y y') (@pydiv _ PN z z').
Proof.
  intros (h & e & k) (h' & e' & k'). pose proof (r_div u allowed p hu' true x y (snd z) x' y' (snd z') k k') as d.
  unfold pydiv in *. cbn [neqb nq Rnum Bpow Pnum Tnum Range.Snum ndiv fst snd] in *. destruct (snd z') as [(n', k'')|]; [|apply rr_lax; reflexivity].
  inversion d as [a b c hr ea eb ec|er c ea eb|]; subst; [|apply rr_raise].
  apply rr_ok. destruct (Reqb (fst z') (Q2R 0)); [discriminate|]. destruct (SFeqb _ _); [discriminate|]. injection ea as ->. injection eb as ->.
  split; [apply Rdiv_lt_0_compat; assumption|]. split; [reflexivity|exact hr].
Qed.
Lemma ptb_pow q x y z : ptightb x y z -> rr true ptightb (@npow R Rnum x q) (@npow _ BN y q) (@npow _ PN z q).
Proof.
  intros (h & e & k). pose proof (r_pow u allowed p hu' hp true q x y (snd z) k) as d. cbn [npow Pnum]. change (@npow size TN (snd z) q) with (@npow size (Range.Snum allowed) (snd z) q).
  remember (@npow R Rnum x q) as A eqn:ea. remember (@npow _ BN y q) as B eqn:eb. remember (@npow size (Range.Snum allowed) (snd z) q) as C eqn:ec.
  destruct d as [a b c hr|er c|a b er _].
  - apply rr_ok. cbn [npow Rnum] in ea. unfold ptightb. cbn [fst snd]. rewrite e. unfold total_pow. rewrite <- ea. split; [|split; [reflexivity|exact hr]].
    rewrite Rpowq_pos in ea by exact h. injection ea as ->. apply exp_pos.
  - apply rr_raise.
  - apply rr_lax. reflexivity.
Qed.
Lemma ptb_add x y z x' y' z' : ptightb x y z -> ptightb x' y' z' -> ptightb (@nadd R Rnum x x') (@nadd _ BN y y') (@nadd _ PN z z').
Proof.
  intros (h & e & k) (h' & e' & k'). split; [cbn; lra|]. split; [cbn; congruence|]. exact (r_add u allowed p hu' x y (snd z) x' y' (snd z') k k').
Qed.

(** The weak relation. *)
Lemma looseb_guard n k z x y : Rabs x <= z -> ((0 <= k <= 1000)%Z -> (Z.of_nat n <= 1000000)%Z -> finite64 y /\ off u n z x (SFR y) /\ sized k z) -> looseb x y (z, guard n k).
Proof.
  intros hz h. split; [exact hz|]. cbn [fst snd]. destruct (guard n k) as [s|] eqn:e; [|exact I]. apply guard_some in e. destruct e as (-> & h1 & h2).
  destruct (h h1 h2) as (a & b & c). auto 10.
Qed.
Lemma sized_sum k l x y : 0 <= x -> 0 <= y -> (0 <= k)%Z -> (0 <= l)%Z -> sized k x -> sized l y -> sized (Z.max k l + 1) (x + y).
Proof.
  intros hx hy hk hl sx sy. destruct (Req_dec x 0) as [->|nx]; [rewrite Rplus_0_l; apply (sized_mono l); [lia|exact sy]|].
  destruct (Req_dec y 0) as [->|ny]; [rewrite Rplus_0_r; apply (sized_mono k); [lia|exact sx]|]. apply sized_add; try assumption; lra.
Qed.
Lemma lb_mul x y z x' y' z' : looseb x y z -> looseb x' y' z' -> looseb (@nmul R Rnum x x') (@nmul _ BN y y') (@nmul _ PN z z').
Proof.
  destruct z as (z, s), z' as (z', s'). intros (h & k) (h' & k'). cbn [fst snd] in *. assert (b : Rabs (x * x') <= z * z').
  { rewrite Rabs_mult. apply Rmult_le_compat; try assumption; apply Rabs_pos. }
  cbn [nmul Rnum Bpow Pnum fst snd]. destruct s as [(n, l)|], s' as [(n', l')|]; cbn [s_prod]; try (split; [exact b|exact I]).
  destruct k as (f & o & s & hk & hn), k' as (f' & o' & s' & hk' & hn'). apply looseb_guard; [exact b|]. intros hk2 hn2.
  pose proof (sized_mul _ _ _ _ s s') as sm. destruct (step (n + n') (l + l') (z * z') (x * x') (SFR y * SFR y') (SFmul 53 1024 y y')) as (a1 & a2); auto; try lia.
  - apply off_mul; assumption.
  - apply mul_full; assumption.
Qed.
Lemma lb_div x y z x' y' z' : looseb x y z -> tightb x' y' z' -> rr true looseb (@pydiv R Rnum x x') (@pydiv _ BN y y') (@pydiv _ PN z z').
Proof.
  destruct z as (z, s), z' as (z', s'). intros (h & k) (e' & k'). cbn [fst snd] in *. unfold pydiv at 3. cbn [neqb Pnum Tnum Range.Snum snd].
  destruct s' as [(n', l')|]; [|apply rr_lax; reflexivity]. destruct k' as (f' & w' & s' & hk' & hn' & _).
  pose proof (within_eq u v01 _ _ _ w') as z0. unfold pydiv. cbn [neqb nq Rnum Bpow]. rewrite q2r_0, eqb_zero by exact f'.
  destruct (Reqb x' 0) eqn:q.
  - apply Reqb_true in q. rewrite (proj2 (Reqb_true (SFR y') 0)) by tauto. apply rr_raise.
  - apply Reqb_false in q. rewrite (proj2 (Reqb_false (SFR y') 0)) by tauto. apply rr_ok.
    assert (i : tight u (/ x') (/ SFR y') (/ Rabs x', n')).
    { split; [cbn; rewrite Rabs_inv; reflexivity|]. apply within_inv; assumption. }
    apply (tight_loose u v01) in i. destruct i as (i1 & i2). cbn [fst snd] in *. subst z'.
    assert (b : Rabs (x / x') <= z / Rabs x').
    { unfold Rdiv. rewrite Rabs_mult. apply Rmult_le_compat; try assumption; apply Rabs_pos. }
    cbn [ndiv Rnum Bpow Pnum fst snd]. destruct s as [(n, l)|]; cbn [s_prod]; [|split; [exact b|exact I]].
    destruct k as (f & o & s & hk & hn). apply looseb_guard; [exact b|]. intros hk2 hn2.
    assert (sm : sized (l + l') (z / Rabs x')) by (apply sized_div; [apply Rabs_no_R0, q|exact s|apply sized_abs, s']).
    destruct (step (n + n') (l + l') (z / Rabs x') (x / x') (SFR y / SFR y') (SFdiv 53 1024 y y')) as (a1 & a2); auto; try lia.
    + unfold Rdiv. apply off_mul; assumption.
    + apply div_full; try assumption. tauto.
Qed.
Lemma lb_add x y z x' y' z' : looseb x y z -> looseb x' y' z' -> looseb (@nadd R Rnum x x') (@nadd _ BN y y') (@nadd _ PN z z').
Proof.
  destruct z as (z, s), z' as (z', s'). intros (h & k) (h' & k'). cbn [fst snd] in *. pose proof (Rabs_pos x). pose proof (Rabs_pos x').
  assert (b : Rabs (x + x') <= z + z') by (pose proof (Rabs_triang x x'); lra).
  cbn [nadd Rnum Bpow Pnum Tnum Range.Snum fst snd]. destruct s as [(n, l)|], s' as [(n', l')|]; try (split; [exact b|exact I]).
  destruct k as (f & o & s & hk & hn), k' as (f' & o' & s' & hk' & hn'). apply looseb_guard; [exact b|]. intros hk2 hn2.
  assert (sm : sized (Z.max l l' + 1) (z + z')) by (apply sized_sum; try assumption; lra || lia).
  destruct (step (Nat.max n n') (Z.max l l' + 1) (z + z') (x + x') (SFR y + SFR y') (SFadd 53 1024 y y')) as (a1 & a2); auto; try lia.
  - apply off_add; [apply (off_mono u v01 n)|apply (off_mono u v01 n')]; try assumption; lia || lra.
  - apply add_full; assumption.
Qed.
Lemma lb_sub x y z x' y' z' : looseb x y z -> looseb x' y' z' -> looseb (@nsub R Rnum x x') (@nsub _ BN y y') (@nsub _ PN z z').
Proof.
  destruct z as (z, s), z' as (z', s'). intros (h & k) (h' & k'). cbn [fst snd] in *. pose proof (Rabs_pos x). pose proof (Rabs_pos x').
  assert (b : Rabs (x - x') <= z + z') by (unfold Rminus; pose proof (Rabs_triang x (- x')); rewrite Rabs_Ropp in *; lra).
  cbn [nsub nadd Rnum Bpow Pnum Tnum Range.Snum fst snd]. destruct s as [(n, l)|], s' as [(n', l')|]; try (split; [exact b|exact I]).
  destruct k as (f & o & s & hk & hn), k' as (f' & o' & s' & hk' & hn'). apply looseb_guard; [exact b|]. intros hk2 hn2.
  assert (sm : sized (Z.max l l' + 1) (z + z')) by (apply sized_sum; try assumption; lra || lia).
  destruct (step (Nat.max n n') (Z.max l l' + 1) (z + z') (x - x') (SFR y - SFR y') (SFsub 53 1024 y y')) as (a1 & a2); auto; try lia.
  - unfold Rminus. apply off_add; [apply (off_mono u v01 n)|apply (off_opp u v01), (off_mono u v01 n')]; try assumption; lia || lra.
  - apply sub_full; assumption.
Qed.
Lemma lb_opp x y z : looseb x y z -> looseb (@nopp R Rnum x) (@nopp _ BN y) (@nopp _ PN z).
Proof.
  intros (h & k). split; [cbn; rewrite Rabs_Ropp; exact h|]. cbn [nopp Rnum Bpow Pnum]. destruct (snd z) as [(n, l)|]; [|exact I].
  destruct k as (f & o & k). destruct (opp_exact y f) as (a & b). split; [exact a|]. rewrite b. split; [apply (off_opp u v01), o|exact k].
Qed.

Variable enc : R -> spec_float.
Notation held := (held enc sz).
Lemma leaf_tightb v : leaves held (ELeaf v) -> relv tightb v (pv_map enc v) (pleaf v).
Proof.
  assert (k : forall x, held x -> tightb x (enc x) (Rabs x, guard 0 (sz x))) by (intros x h; split; [reflexivity|apply (r_in u enc sz false x h); discriminate]).
  intro h. destruct v as [x| | |w|m]; cbn in *; try exact I; unfold relu, relm; cbn; repeat (split; [reflexivity|]); apply k, h.
Qed.
Lemma leaf_ptightb v : leaves held (ELeaf v) -> positive v -> relv ptightb v (pv_map enc v) (pleaf v).
Proof.
  assert (k : forall x, held x -> 0 < x -> ptightb x (enc x) (Rabs x, guard 0 (sz x))).
  { intros x h h0. split; [exact h0|]. split; [apply Rabs_pos_eq; lra|apply (r_in u enc sz true x h); auto]. }
  intros h h0. destruct v as [x| | |w|m]; cbn in *; try exact I; unfold relu, relm; cbn; repeat (split; [reflexivity|]); apply k; assumption.
Qed.
Lemma run_tightb e : no_sums e -> leaves held e -> rr true (relv tightb) (eval e) (beval p enc e) (@geval _ PN pleaf e).
Proof.
  unfold beval. induction e as [v|e IHe f IHf|e IHe f IHf|e IHe f IHf|e IHe f IHf|e IHe k|e IHe]; cbn [no_sums eval geval]; intros h hv; try contradiction.
  - apply rr_ok, leaf_tightb, hv.
  - destruct h as (h & h'), hv as (v & v'). eapply rr_bind; [apply IHe; assumption|]. intros x y z hx. eapply rr_bind; [apply IHf; assumption|]. intros x' y' z' hx'.
    apply (@rr_mul _ _ _ Rnum BN PN true tightb (fun q => (0 < q)%Q)); auto using tb_q, tb_mul, tb_div, tb_pow; [reflexivity|exact prefix_pos].
  - destruct h as (h & h'), hv as (v & v'). eapply rr_bind; [apply IHe; assumption|]. intros x y z hx. eapply rr_bind; [apply IHf; assumption|]. intros x' y' z' hx'.
    apply (@rr_divide _ _ _ Rnum BN PN true tightb (fun q => (0 < q)%Q)); auto using tb_q, tb_mul, tb_div, tb_pow; [reflexivity|exact prefix_pos].
  - eapply rr_bind; [apply IHe; assumption|]. intros x y z hx. apply (@rr_power _ _ _ Rnum BN PN true tightb); auto using tb_pow.
  - eapply rr_bind; [apply IHe; assumption|]. intros x y z hx. apply (@rr_neg _ _ _ Rnum BN PN true tightb); auto.
    intros x0 y0 z0 (e0 & k). split; [cbn; rewrite Rabs_Ropp; exact e0|]. exact (r_opp u allowed p x0 y0 (snd z0) k).
Qed.
Lemma run_ptightb e : only_positive e -> leaves held e -> rr true (relv ptightb) (eval e) (beval p enc e) (@geval _ PN pleaf e).
Proof.
  unfold beval. induction e as [v|e IHe f IHf|e IHe f IHf|e IHe f IHf|e IHe f IHf|e IHe k|e IHe]; cbn [only_positive eval geval]; intros h hv; try contradiction.
  - apply rr_ok, leaf_ptightb; assumption.
  - destruct h as (h & h'), hv as (v & v'). eapply rr_bind; [apply IHe; assumption|]. intros x y z hx. eapply rr_bind; [apply IHf; assumption|]. intros x' y' z' hx'.
    apply (@rr_mul _ _ _ Rnum BN PN true ptightb (fun q => (0 < q)%Q)); auto using ptb_q, ptb_mul, ptb_div, ptb_pow; [reflexivity|exact prefix_pos].
  - destruct h as (h & h'), hv as (v & v'). eapply rr_bind; [apply IHe; assumption|]. intros x y z hx. eapply rr_bind; [apply IHf; assumption|]. intros x' y' z' hx'.
    apply (@rr_divide _ _ _ Rnum BN PN true ptightb (fun q => (0 < q)%Q)); auto using ptb_q, ptb_mul, ptb_div, ptb_pow; [reflexivity|exact prefix_pos].
  - destruct h as (h & h'), hv as (v & v'). eapply rr_bind; [apply IHe; assumption|]. intros x y z hx. eapply rr_bind; [apply IHf; assumption|]. intros x' y' z' hx'.
    apply (@rr_add _ _ _ Rnum BN PN true ptightb); auto using ptb_add.
  - eapply rr_bind; [apply IHe; assumption|]. intros x y z hx. apply (@rr_power _ _ _ Rnum BN PN true ptightb); auto using ptb_pow.
Qed.
Lemma run_firmb e : firm e -> leaves held e -> rr true (relv tightb) (eval e) (beval p enc e) (@geval _ PN pleaf e).
Proof.
  intros [h|h] hv; [apply run_tightb; assumption|]. eapply rr_weaken; [|apply run_ptightb; assumption]. apply relv_weaken, ptightb_tightb.
Qed.
Lemma run_looseb e : steady e -> leaves held e -> rr true (relv looseb) (eval e) (beval p enc e) (@geval _ PN pleaf e).
Proof.
  unfold beval. induction e as [v|e IHe f IHf|e IHe f IHf|e IHe f IHf|e IHe f IHf|e IHe k|e IHe]; cbn [steady eval geval]; intros h hv.
  - apply rr_ok. eapply relv_weaken; [apply tightb_looseb|apply leaf_tightb, hv].
  - destruct h as (h & h'), hv as (v & v'). eapply rr_bind; [apply IHe; assumption|]. intros x y z hx. eapply rr_bind; [apply IHf; assumption|]. intros x' y' z' hx'.
    apply (@wk_mul _ _ _ Rnum BN PN true tightb looseb (fun q => (0 < q)%Q)); auto using tb_q, tb_mul, tb_div, tb_pow, tightb_looseb, lb_mul; [reflexivity|exact prefix_pos].
  - destruct h as (h & h'), hv as (v & v'). eapply rr_bind; [apply IHe; assumption|]. intros x y z hx. eapply rr_bind; [apply (run_firmb f); assumption|]. intros x' y' z' hx'.
    apply (@wk_divide _ _ _ Rnum BN PN true tightb looseb (fun q => (0 < q)%Q)); auto using tb_q, tb_mul, tb_div, tb_pow, tightb_looseb, lb_mul, lb_div; [reflexivity|exact prefix_pos].
  - destruct h as (h & h'), hv as (v & v'). eapply rr_bind; [apply IHe; assumption|]. intros x y z hx. eapply rr_bind; [apply IHf; assumption|]. intros x' y' z' hx'.
    apply (@rr_add _ _ _ Rnum BN PN true looseb); auto using lb_add.
  - destruct h as (h & h'), hv as (v & v'). eapply rr_bind; [apply IHe; assumption|]. intros x y z hx. eapply rr_bind; [apply IHf; assumption|]. intros x' y' z' hx'.
    apply (@wk_sub _ _ _ Rnum BN PN true looseb); auto using lb_sub.
  - eapply rr_bind; [apply (run_firmb e); assumption|]. intros x y z hx. eapply rr_weaken; [apply relv_weaken, tightb_looseb|].
    apply (@rr_power _ _ _ Rnum BN PN true tightb); auto using tb_pow.
  - eapply rr_bind; [apply IHe; assumption|]. intros x y z hx. apply (@rr_neg _ _ _ Rnum BN PN true looseb); auto using lb_opp.
Qed.

(** The exact run does not raise, so the run without signs does not. *)
Lemma bulk_runs e x : tame e -> eval e = Ok x -> exists z, @geval R SN unsigned e = Ok z.
Proof.
  intros h ex. assert (h1 : 0 <= / 2 ^ 53 < 1).
  { assert (0 < / 2 ^ 53) by (apply Rinv_0_lt_compat, pow_lt; lra). pose proof hu'. pose proof v01. lra. }
  pose proof (rr_tight _ _ _ _ (run_loose (/ 2 ^ 53) h1 arith53 arith53_accurate e h)) as k. rewrite ex in k.
  destruct (feval arith53 e) as [y|]; [|contradiction]. destruct k as (m & em & _). pose proof (run_both e) as b. rewrite em in b.
  inversion b as [s q n hb es ep en| |]; [|discriminate]. eauto.
Qed.
Lemma binary_any e n : steady e -> leaves held e -> fits_any allowed sz e = Some n -> like (off u n (bulk e)) (eval e) (beval p enc e).
Proof.
  intros h hv hf. pose proof (run_looseb e h hv) as r. pose proof (rr_tight _ _ _ _ (sizes_run e)) as s. unfold fits_any in hf.
  destruct (@geval size TN _ e) as [c|]; [|discriminate]. destruct s as (pz & es & s). rewrite es in r.
  inversion r as [x y z k e1 e2 e3|er c0 e1 e2|]; [|reflexivity]. subst z.
  destruct (bulk_runs e x (steady_tame e h) (eq_sym e1)) as (b & eb). pose proof (bulks_run e) as q. rewrite es, eb in q.
  inversion q as [b1 b2 b3 kb f1 f2 f3| |]; subst b1 b2 b3. unfold bulk. rewrite eb. cbn [known] in hf.
  assert (val : forall x y (pz : R * size) c b, sizes c c pz -> bulks b b pz -> looseb x y pz -> option_map fst c = Some n -> like_value (off u n b) x y).
  { intros x0 y0 (z0, s0) c1 b0 (_ & s1) (_ & q1) (_ & k1) o. cbn [fst snd] in *. subst. destruct c1 as [(n1, k2)|]; [|discriminate]. cbn in o. injection o as ->. split; apply k1. }
  destruct x as [x| | |w1|m1], y as [y| | |w2|m2], pz as [z| | |w3|m3]; cbn [relv] in k; try contradiction;
    destruct c as [c| | |w4|m4]; cbn [relv] in s; try contradiction; destruct b as [b| | |w5|m5]; cbn [relv] in kb; try contradiction; cbn [like number pv_size] in *; try exact I.
  - apply (val _ _ z c b); assumption.
  - unfold relu in *. destruct k as (k1 & k2 & k3 & k4 & k5 & k6 & k), s as (_ & _ & _ & _ & _ & _ & s), kb as (_ & _ & _ & _ & _ & _ & kb).
    do 3 (split; [auto|]). apply (val _ _ (uv w3) (uv w4) (uv w5)); assumption.
  - unfold relm in *. destruct k as (k1 & k2 & k3 & k4 & k5 & k6 & k), s as (_ & _ & _ & _ & _ & _ & s), kb as (_ & _ & _ & _ & _ & _ & kb).
    do 3 (split; [auto|]). apply (val _ _ (mv m3) (mv m4) (mv m5)); assumption.
Qed.
End Allowed.
