(** * RangeFacts: the model's runs in binary64 stay in range and close *)
From Coq Require Import String Ascii List ZArith QArith Qcanon Bool Reals Qreals Qabs Qround Lia Lra.
From Coq Require Import Floats.SpecFloat.
From Verif Require Import Py Num NumFacts UnitsData UnitsStruct Units Expr Rounding RoundSpec RoundFacts RoundErr RoundCases Range RangeSpec FloatExp FloatRound B64Facts.
Import ListNotations.
Local Open Scope string_scope.
Local Open Scope list_scope.
Local Open Scope R_scope.
Local Notation p2 := (powerRZ 2).

(** ** Sizes *)
Lemma sized_0 k : sized k 0.
Proof. left. reflexivity. Qed.
Lemma sized_mono k l x : (k <= l)%Z -> sized k x -> sized l x.
Proof.
  intros h [->|(a & b)]; [apply sized_0|right]. split; [apply Rle_trans with (2 := a); apply p2_le; lia|apply Rle_trans with (1 := b); apply p2_le; lia].
Qed.
Lemma sized_mul k l x y : sized k x -> sized l y -> sized (k + l) (x * y).
Proof.
  intros [->|(a & b)]; [intros _; rewrite Rmult_0_l; apply sized_0|]. intros [->|(c & d)]; [rewrite Rmult_0_r; apply sized_0|right].
  rewrite Rabs_mult. replace (- (k + l))%Z with (- k + - l)%Z by lia. rewrite !p2_add. pose proof (p2_gt (- k)). pose proof (p2_gt (- l)).
  split; apply Rmult_le_compat; try lra; apply Rabs_pos.
Qed.
Lemma sized_inv l y : y <> 0 -> sized l y -> sized l (/ y).
Proof.
  intros h [e|(c & d)]; [contradiction|right]. rewrite Rabs_inv. apply Rabs_pos_lt in h. pose proof (p2_gt l). pose proof (p2_gt (- l)). split.
  - rewrite p2_opp. apply Rinv_le_contravar; assumption.
  - replace l with (- - l)%Z by lia. rewrite p2_opp. apply Rinv_le_contravar; assumption.
Qed.
Lemma sized_div k l x y : y <> 0 -> sized k x -> sized l y -> sized (k + l) (x / y).
Proof. intros h hx hy. unfold Rdiv. apply sized_mul; [exact hx|apply sized_inv; assumption]. Qed.
Lemma sized_opp k x : sized k x -> sized k (- x).
Proof. intros [->|h]; [left; ring|right]. rewrite Rabs_Ropp. exact h. Qed.
Lemma sized_add k l x y : 0 < x -> 0 < y -> sized k x -> sized l y -> sized (Z.max k l + 1) (x + y).
Proof.
  intros hx hy h h'. apply (sized_mono k (Z.max k l)) in h; [|lia]. apply (sized_mono l (Z.max k l)) in h'; [|lia]. set (m := Z.max k l) in *.
  destruct h as [h|(a & b)]; [lra|]. destruct h' as [h'|(c & d)]; [lra|]. right. rewrite (Rabs_pos_eq x), (Rabs_pos_eq y) in * by lra. rewrite Rabs_pos_eq by lra.
  rewrite (p2_add m 1). change (p2 1) with (2 ^ 1). split; [|lra]. apply Rle_trans with (p2 (- m)); [apply p2_le; lia|lra].
Qed.
Lemma half_pow n : (1 - / 2) ^ n = p2 (- Z.of_nat n).
Proof. replace (1 - / 2) with (/ 2) by lra. rewrite pow_inv, p2_opp, <- pow_powerRZ. reflexivity. Qed.
Lemma abs_powerRZ x z : x <> 0 -> Rabs (powerRZ x z) = Rpower (Rabs x) (IZR z).
Proof.
  intro h. rewrite <- powerRZ_Rpower by (apply Rabs_pos_lt, h). destruct z as [|q|q]; cbn [powerRZ].
  - apply Rabs_R1.
  - rewrite RPow_abs. reflexivity.
  - rewrite Rabs_inv, RPow_abs. reflexivity.
Qed.
Lemma sized_power k x r c : (0 <= k)%Z -> x <> 0 -> sized k x -> Rabs r <= INR c ->
  p2 (- (Z.of_nat c * k)) <= Rpower (Rabs x) r <= p2 (Z.of_nat c * k).
Proof.
  intros hk hx [e|(a & b)] hr; [contradiction|].
  assert (u2 : 0 <= / 2 < 1) by lra.
  pose proof (Rpower_bounds (/ 2) u2 (Z.to_nat k) (Rabs x) r c) as h. rewrite !half_pow in h. rewrite Z2Nat.id in h by exact hk.
  rewrite Nat2Z.inj_mul, Z2Nat.id in h by exact hk. rewrite <- !p2_opp in h. rewrite !Z.opp_involutive in h. apply h; [split; assumption|exact hr].
Qed.
Lemma sized_pow k x q v : (0 <= k)%Z -> sized k x -> Rpowq x q = Ok v -> sized (Z.of_nat (repeats q) * k) v.
Proof.
  intros hk hs. pose proof (repeats_ge q) as hr. set (c := repeats q) in *. unfold Rpowq.
  assert (one : sized (Z.of_nat c * k) 1).
  { right. rewrite Rabs_R1. assert (0 <= Z.of_nat c * k)%Z by (apply Z.mul_nonneg_nonneg; lia). change 1 with (p2 0). split; apply p2_le; lia. }
  destruct (is_int q) eqn:i.
  - assert (e : QcR q = IZR (Qnum (this q))) by (unfold is_int in i; apply Pos.eqb_eq in i; unfold QcR, Q2R; rewrite i; field). rewrite e in hr.
    destruct (Reqb x 0) eqn:z.
    + apply Reqb_true in z. subst. cbn [andb]. destruct (Qcltb q (qc 0)) eqn:l; [discriminate|]. intro h. injection h as <-.
      destruct (Qnum (this q)) as [|n|n] eqn:n0; cbn [powerRZ]; [exact one|left; apply pow_i; lia|].
      exfalso. apply Qcltb_ge in l. rewrite e in l. change (QcR (qc 0)) with (Q2R 0) in l. rewrite q2r_0 in l. apply le_IZR in l. lia.
    + apply Reqb_false in z. cbn [andb]. intro h. injection h as <-. right. rewrite abs_powerRZ by exact z. apply sized_power; assumption.
  - destruct (Rltb 0 x) eqn:l.
    + apply Rltb_true in l. intro h. injection h as <-. right. rewrite (Rabs_pos_eq (Rpower _ _)) by (left; apply exp_pos).
      pose proof (sized_power k x (QcR q) c hk ltac:(lra) hs hr) as h. rewrite (Rabs_pos_eq x) in h by lra. exact h.
    + destruct (Reqb x 0); [|discriminate]. destruct (Qcltb q (qc 0)); [discriminate|]. intro h. injection h as <-. apply sized_0.
Qed.
Lemma log2_range n : (0 < n)%Z -> p2 (Z.log2 n) <= IZR n < p2 (Z.log2 n + 1).
Proof. intro h. pose proof (Z.log2_spec n h) as s. pose proof (Z.log2_nonneg n). rewrite !p2_nonneg by lia. split; [apply IZR_le|apply IZR_lt]; lia. Qed.
Lemma Q2R_abs q : Rabs (Q2R q) = IZR (Z.abs (Qnum q)) / IZR (Zpos (Qden q)).
Proof.
  unfold Q2R, Rdiv. rewrite Rabs_mult, Rabs_inv, <- !abs_IZR. reflexivity.
Qed.
Lemma lit_sized q : Qeq_bool q 0 = false -> sized (lit_size q) (Q2R q).
Proof.
  intro h. apply Qeq_bool_neq in h. right. rewrite Q2R_abs. unfold lit_size.
  assert (n0 : (0 < Z.abs (Qnum q))%Z). { destruct (Qnum q) eqn:e; try lia. exfalso. apply h. unfold Qeq. rewrite e. reflexivity. }
  destruct (Z.eqb_spec (Z.abs (Qnum q)) (Z.pos (Qden q))) as [e|_].
  - rewrite e. unfold Rdiv. rewrite Rinv_r by (apply not_0_IZR; lia). cbn. lra.
  - pose proof (log2_range _ n0) as a. pose proof (log2_range (Zpos (Qden q)) eq_refl) as b. set (A := Z.log2 (Z.abs (Qnum q))) in *. set (B := Z.log2 (Z.pos (Qden q))) in *.
    set (N := IZR (Z.abs (Qnum q))) in *. set (D := IZR (Z.pos (Qden q))) in *. assert (d0 : 0 < D) by (apply IZR_lt; lia). split.
    + apply Rle_trans with (p2 (A - B - 1)); [apply p2_le; lia|]. apply (Rmult_le_reg_r D); [exact d0|]. unfold Rdiv. rewrite Rmult_assoc, Rinv_l, Rmult_1_r by lra.
      apply Rle_trans with (2 := proj1 a). replace A with ((A - B - 1) + (B + 1))%Z at 2 by lia. rewrite p2_add. apply Rmult_le_compat_l; [left; apply p2_gt|lra].
    + apply Rle_trans with (p2 (A - B + 1)); [|apply p2_le; lia]. apply (Rmult_le_reg_r D); [exact d0|]. unfold Rdiv. rewrite Rmult_assoc, Rinv_l, Rmult_1_r by lra.
      apply Rle_trans with (p2 (A + 1)); [lra|]. replace (A + 1)%Z with ((A - B + 1) + B)%Z by lia. rewrite p2_add. apply Rmult_le_compat_l; [left; apply p2_gt|lra].
Qed.
Lemma sized_mid k x : (k <= 1020)%Z -> sized k x -> x = 0 \/ mid x.
Proof. intros hk h. apply (sized_mono k 1020 x hk) in h. exact h. Qed.
Lemma f_lit_near q : (lit_size q <= 1000)%Z -> Qeq_bool q 0 = false ->
  finite64 (f_lit q) /\ near1 (/ 2 ^ 53) (Q2R q) (SFR (f_lit q)) /\ (whole q = true -> SFR (f_lit q) = Q2R q).
Proof.
  intros hk h. pose proof (lit_sized q h) as s. unfold f_lit, whole. destruct (Pos.eqb_spec (Qden q) 1) as [e|e]; cbn [andb].
  - assert (v : Q2R q = IZR (Qnum q)) by (unfold Q2R; rewrite e; field). rewrite v in *.
    destruct (f_int_near (Qnum q)) as (a & b & c).
    + apply le_IZR. rewrite <- p2_nonneg by lia. rewrite abs_IZR. apply (sized_mono _ 1019) in s; [|lia]. destruct s as [->|(_ & s)]; [rewrite Rabs_R0; left; apply p2_gt|exact s].
    + split; [exact a|]. split; [exact b|]. intro w. apply Z.leb_le in w. apply c, w.
  - apply Qeq_bool_neq in h. destruct (sized_mid _ _ (Z.le_trans _ _ 1020 hk ltac:(lia)) s) as [z|m].
    + exfalso. apply h. apply eqR_Qeq. rewrite z. unfold Q2R. cbn. field.
    + unfold mid in m. rewrite Q2R_abs in m. destruct (Qnum q) as [|n|n] eqn:n0.
      * exfalso. apply h. unfold Qeq. rewrite n0. reflexivity.
      * destruct (quot_near false (Zpos n) 0 (Zpos (Qden q)) 0 eq_refl eq_refl) as (a & b); change (p2 0) with 1 in *; rewrite !Rmult_1_r in *; [exact m|].
        split; [exact a|]. split; [|discriminate]. cbn [sgn] in b. rewrite Rmult_1_l in b. unfold Q2R. rewrite n0. exact b.
      * destruct (quot_near true (Zpos n) 0 (Zpos (Qden q)) 0 eq_refl eq_refl) as (a & b); change (p2 0) with 1 in *; rewrite !Rmult_1_r in *; [exact m|].
        split; [exact a|]. split; [|discriminate]. cbn [sgn] in b. unfold Q2R. rewrite n0. change (Z.neg n) with (- Z.pos n)%Z. rewrite opp_IZR.
        replace (- IZR (Z.pos n) * / IZR (Z.pos (Qden q))) with (-1 * (IZR (Z.pos n) / IZR (Z.pos (Qden q)))) by (unfold Rdiv; ring). exact b.
Qed.
Lemma guard_some n k s : guard n k = Some s -> s = (n, k) /\ (0 <= k <= 1000)%Z /\ (Z.of_nat n <= 1000000)%Z.
Proof.
  unfold guard. destruct (Z.leb_spec 0 k); [|discriminate]. destruct (Z.leb_spec k 1000); [|discriminate]. destruct (Z.leb_spec (Z.of_nat n) 1000000); [|discriminate].
  cbn [andb]. intro e. injection e as <-. auto.
Qed.

Section Run.
Variables (u : R) (allowed : Qc -> bool) (p : spec_float -> Qc -> res spec_float).
Hypothesis hu : / 2 ^ 53 <= u <= / 2 ^ 40.
Hypothesis hp : pow_good u allowed p.
Lemma u_small : 0 < u <= / 1000000000000.
Proof.
  split; [apply Rlt_le_trans with (2 := proj1 hu); apply Rinv_0_lt_compat, pow_lt; lra|]. apply Rle_trans with (1 := proj2 hu).
  apply Rinv_le_contravar; [lra|]. rewrite (pow_IZR 2 40). apply IZR_le. vm_compute. discriminate.
Qed.
Lemma u01 : 0 <= u < 1.
Proof. pose proof u_small. lra. Qed.
Let within_trans := within_trans u u01.
Let near_within := near_within u u01.
Lemma near_u v w : near1 (/ 2 ^ 53) v w -> within u 1 v w.
Proof. intro h. apply near_within. unfold near1 in *. apply Rle_trans with (1 := h). apply Rmult_le_compat_r; [apply Rabs_pos|apply hu]. Qed.
Lemma drift n : (Z.of_nat n <= 1000000)%Z -> / 2 <= (1 - u) ^ n.
Proof.
  intro h. pose proof (bernoulli u u01 n) as b. pose proof u_small. rewrite INR_IZR_INZ in b. apply IZR_le in h.
  assert (0 <= IZR (Z.of_nat n)) by (apply IZR_le; lia). assert (IZR (Z.of_nat n) * u <= / 2); [|lra].
  apply Rle_trans with (1000000 * / 1000000000000); [apply Rmult_le_compat; lra|lra].
Qed.
Lemma sized_within n k x y : (Z.of_nat n <= 1000000)%Z -> within u n x y -> sized k x -> sized (k + 1) y.
Proof.
  intros hn (f & (f1 & f2) & ->) hs. pose proof (drift n hn) as d. apply sized_mul; [exact hs|]. right.
  assert (/ (1 - u) ^ n <= / / 2) by (apply Rinv_le_contravar; lra). rewrite Rinv_inv in *. rewrite Rabs_pos_eq by lra. change (p2 (- (1))) with (/ 2 ^ 1). change (p2 1) with (2 ^ 1). rewrite pow_1. lra.
Qed.

Definition rel (pos : bool) (x : R) (y : spec_float) (s : size) : Prop :=
  match s with
  | None => True
  | Some (n, k) => finite64 y /\ within u n x (SFR y) /\ sized k x /\ (0 <= k <= 1000)%Z /\ (Z.of_nat n <= 1000000)%Z /\ (pos = true -> 0 < x)
  end.
Section Pos.
Variable pos : bool.
Notation rel := (rel pos).
Lemma rel_guard n k x y : ((0 <= k <= 1000)%Z -> (Z.of_nat n <= 1000000)%Z -> finite64 y /\ within u n x (SFR y) /\ sized k x /\ (pos = true -> 0 < x)) -> rel x y (guard n k).
Proof.
  intro h. destruct (guard n k) as [s|] eqn:e; [|exact I]. apply guard_some in e. destruct e as (-> & h1 & h2). destruct (h h1 h2) as (a & b & c & d). cbn. auto 10.
Qed.
Lemma r_lit q : (pos = true -> (0 < q)%Q) -> rel (@nq R Rnum q) (@nq spec_float (Bpow p) q) (@nq size (Snum allowed) q).
Proof.
  intro hq. cbn [nq Rnum Bpow Snum]. destruct (Qeq_bool q 0) eqn:z; [exact I|]. apply rel_guard. intros hk _.
  destruct (f_lit_near q (proj2 hk) z) as (a & b & c). split; [exact a|]. split; [|split; [apply lit_sized, z|]].
  - destruct (whole q); [rewrite c by reflexivity; apply within_0|apply near_u, b].
  - intro h. apply hq in h. apply Qlt_Rlt in h. rewrite q2r_0 in h. exact h.
Qed.
Lemma r_mul x y z x' y' z' : rel x y z -> rel x' y' z' ->
  rel (@nmul R Rnum x x') (@nmul spec_float (Bpow p) y y') (@nmul size (Snum allowed) z z').
Proof.
  destruct z as [(n, k)|], z' as [(n', k')|]; try (intros; exact I). intros (f & w & s & hk & hn & ps) (f' & w' & s' & hk' & hn' & ps').
  cbn [nmul Rnum Bpow Snum s_prod]. apply rel_guard. intros hk2 hn2.
  pose proof (within_mul u u01 _ _ _ _ _ _ w w') as wm. pose proof (sized_mul _ _ _ _ s s') as sm.
  destruct (mul_near y y' f f') as (a & b).
  - intro h. destruct (sized_within _ _ _ _ hn w s) as [e|(e & _)]; [contradiction|]. apply Rle_trans with (2 := e). apply p2_le. lia.
  - apply (sized_mid (k + k' + 1)); [lia|]. apply (sized_within (n + n') _ (x * x')); [lia|assumption|assumption].
  - split; [exact a|]. split; [|split; [exact sm|intro h; apply Rmult_lt_0_compat; auto]].
    replace (S (n + n')) with (n + n' + 1)%nat by lia. apply (within_trans _ _ _ (SFR y * SFR y')); [exact wm|apply near_u, b].
Qed.
Lemma r_ndiv x y z x' y' z' : x' <> 0 -> rel x y z -> rel x' y' z' ->
  rel (@ndiv R Rnum x x') (@ndiv spec_float (Bpow p) y y') (@ndiv size (Snum allowed) z z').
Proof.
  intro hx. destruct z as [(n, k)|], z' as [(n', k')|]; try (intros; exact I). intros (f & w & s & hk & hn & ps) (f' & w' & s' & hk' & hn' & ps').
  cbn [ndiv Rnum Bpow Snum s_prod]. apply rel_guard. intros hk2 hn2.
  pose proof (within_div u u01 _ _ _ _ _ _ hx w w') as wm. pose proof (sized_div _ _ _ _ hx s s') as sm.
  destruct (div_near y y' f f') as (a & b).
  - intro h. apply hx. apply (within_eq u u01 _ _ _ w'). exact h.
  - apply (sized_mid (k + k' + 1)); [lia|]. apply (sized_within (n + n') _ (x / x')); [lia|assumption|assumption].
  - split; [exact a|]. split; [|split; [exact sm|intro h; apply Rdiv_lt_0_compat; auto]].
    replace (S (n + n')) with (n + n' + 1)%nat by lia. apply (within_trans _ _ _ (SFR y / SFR y')); [exact wm|apply near_u, b].
Qed.
Lemma r_div x y z x' y' z' : rel x y z -> rel x' y' z' ->
  rr true rel (@pydiv R Rnum x x') (@pydiv spec_float (Bpow p) y y') (@pydiv size (Snum allowed) z z').
Proof.
  intros h h'. unfold pydiv at 3. cbn [neqb Snum]. destruct z' as [(n', k')|]; [|apply rr_lax; reflexivity].
  pose proof h' as (f' & w' & _). pose proof (within_eq u u01 _ _ _ w') as e. unfold pydiv. cbn [neqb nq Rnum Bpow]. rewrite q2r_0, eqb_zero by exact f'.
  destruct (Reqb x' 0) eqn:k.
  - apply Reqb_true in k. rewrite (proj2 (Reqb_true (SFR y') 0)) by tauto. apply rr_raise.
  - apply Reqb_false in k. rewrite (proj2 (Reqb_false (SFR y') 0)) by tauto. apply rr_ok, r_ndiv; assumption.
Qed.
Lemma r_pow q x y z : rel x y z -> rr true rel (@npow R Rnum x q) (@npow spec_float (Bpow p) y q) (@npow size (Snum allowed) z q).
Proof.
  destruct z as [(n, k)|]; cbn [npow Snum]; [|intros _; apply rr_lax; reflexivity].
  destruct (guard (S (repeats q * n)) (Z.of_nat (repeats q) * k)) as [t|] eqn:gd; [|intros _; apply rr_lax; reflexivity].
  destruct (allowed q) eqn:al; [|intros _; apply rr_lax; reflexivity]. intros (f & w & s & hk & hn & ps). cbn [npow Rnum Bpow].
  pose proof (within_Rpow u u01 _ _ _ q w) as wp. pose proof (hp y q f al) as g. pose proof (sized_pow k x q) as sp.
  assert (px : forall v, pos = true -> Rpowq x q = Ok v -> 0 < v).
  { intros v h. rewrite Rpowq_pos by (apply ps, h). intro e. injection e as <-. apply exp_pos. }
  destruct (Rpowq x q) as [v|e], (Rpowq (SFR y) q) as [v'|e']; try contradiction; [|subst; rewrite g; apply rr_raise].
  specialize (sp v ltac:(lia) s eq_refl). pose proof gd as gd'. apply guard_some in gd'. destruct gd' as (_ & g1 & g2). destruct g as (v2 & -> & f2 & n2).
  { apply (sized_mono (Z.of_nat (repeats q) * k + 1)); [lia|]. apply (sized_within (repeats q * n) _ v); [lia|assumption|assumption]. }
  apply rr_ok. rewrite <- gd. apply rel_guard. intros _ _. split; [exact f2|]. split; [|split; [exact sp|intro h; apply (px v h eq_refl)]].
  replace (S (repeats q * n)) with (repeats q * n + 1)%nat by lia. apply (within_trans _ _ _ v'); [exact wp|apply near_within, n2].
Qed.
End Pos.
Lemma r_opp x y z : rel false x y z -> rel false (@nopp R Rnum x) (@nopp spec_float (Bpow p) y) (@nopp size (Snum allowed) z).
Proof.
  destruct z as [(n, k)|]; [|auto]. intros (f & w & s & hk & hn & ps). cbn [nopp Rnum Bpow Snum]. destruct (opp_exact y f) as (a & b). cbn [rel]. rewrite b.
  repeat (split; [first [assumption|apply within_opp, w|apply sized_opp, s|lia]|]). discriminate.
Qed.
Lemma r_add x y z x' y' z' : rel true x y z -> rel true x' y' z' ->
  rel true (@nadd R Rnum x x') (@nadd spec_float (Bpow p) y y') (@nadd size (Snum allowed) z z').
Proof.
  destruct z as [(n, k)|], z' as [(n', k')|]; try (intros; exact I). intros (f & w & s & hk & hn & ps) (f' & w' & s' & hk' & hn' & ps').
  specialize (ps eq_refl). specialize (ps' eq_refl). cbn [nadd Rnum Bpow Snum]. apply rel_guard. intros hk2 hn2.
  assert (wm : within u (Nat.max n n') (x + x') (SFR y + SFR y')).
  { apply within_add; try assumption; [apply (within_mono u u01 n)|apply (within_mono u u01 n')]; try assumption; lia. }
  pose proof (sized_add _ _ _ _ ps ps' s s') as sm.
  destruct (add_near y y' f f') as (a & b).
  - apply (sized_mid (Z.max k k' + 1 + 1)); [lia|]. apply (sized_within (Nat.max n n') _ (x + x')); [lia|assumption|assumption].
  - split; [exact a|]. split; [|split; [exact sm|intros _; lra]].
    replace (S (Nat.max n n')) with (Nat.max n n' + 1)%nat by lia. apply (within_trans _ _ _ (SFR y + SFR y')); [exact wm|apply near_u, b].
Qed.

(** ** Expressions *)
Variables (enc : R -> spec_float) (sz : R -> Z).
Notation held := (held enc sz).
Lemma r_in pos x : held x -> (pos = true -> 0 < x) -> rel pos x (enc x) (guard 0 (sz x)).
Proof. intros (a & b & c) h. apply rel_guard. intros _ _. rewrite b. repeat (split; [first [assumption|apply within_0]|]). exact h. Qed.
Lemma r_leaf pos v : leaves held (ELeaf v) -> (pos = true -> positive v) -> relv (rel pos) v (pv_map enc v) (pv_map (fun x => guard 0 (sz x)) v).
Proof.
  intros h hq. destruct v as [x| | |w|m]; cbn in *; try exact I; try (apply r_in; assumption); repeat (split; [reflexivity|]); (apply r_in; assumption).
Qed.
Lemma run_products e : no_sums e -> leaves held e ->
  rr true (relv (rel false)) (eval e) (beval p enc e) (@geval size (Snum allowed) (pv_map (fun x => guard 0 (sz x))) e).
Proof.
  assert (lit : forall q, True -> rel false (@nq R Rnum q) (@nq spec_float (Bpow p) q) (@nq size (Snum allowed) q)) by (intros; apply r_lit; discriminate).
  unfold beval. induction e as [v|e IHe f IHf|e IHe f IHf|e IHe f IHf|e IHe f IHf|e IHe k|e IHe]; cbn [no_sums eval geval]; intros h hv; try contradiction.
  - apply rr_ok, r_leaf; [exact hv|discriminate].
  - destruct h as (h & h'), hv as (v & v'). eapply rr_bind; [apply IHe; assumption|]. intros x y z hx. eapply rr_bind; [apply IHf; assumption|]. intros x' y' z' hx'.
    apply (rr_mul true (rel false) (fun _ => True)); auto using r_mul, r_div, r_pow.
  - destruct h as (h & h'), hv as (v & v'). eapply rr_bind; [apply IHe; assumption|]. intros x y z hx. eapply rr_bind; [apply IHf; assumption|]. intros x' y' z' hx'.
    apply (rr_divide true (rel false) (fun _ => True)); auto using r_mul, r_div, r_pow.
  - eapply rr_bind; [apply IHe; assumption|]. intros x y z hx. apply (rr_power true (rel false)); auto using r_pow.
  - eapply rr_bind; [apply IHe; assumption|]. intros x y z hx. apply (rr_neg true (rel false)); auto using r_opp.
Qed.
Lemma run_sums e : only_positive e -> leaves held e ->
  rr true (relv (rel true)) (eval e) (beval p enc e) (@geval size (Snum allowed) (pv_map (fun x => guard 0 (sz x))) e).
Proof.
  assert (lit : forall q, (0 < q)%Q -> rel true (@nq R Rnum q) (@nq spec_float (Bpow p) q) (@nq size (Snum allowed) q)) by (intros; apply r_lit; auto).
  unfold beval. induction e as [v|e IHe f IHf|e IHe f IHf|e IHe f IHf|e IHe f IHf|e IHe k|e IHe]; cbn [only_positive eval geval]; intros h hv; try contradiction.
  - apply rr_ok, r_leaf; [exact hv|intros _; exact h].
  - destruct h as (h & h'), hv as (v & v'). eapply rr_bind; [apply IHe; assumption|]. intros x y z hx. eapply rr_bind; [apply IHf; assumption|]. intros x' y' z' hx'.
    apply (rr_mul true (rel true) (fun q => (0 < q)%Q)); auto using r_mul, r_div, r_pow; [reflexivity|exact prefix_pos].
  - destruct h as (h & h'), hv as (v & v'). eapply rr_bind; [apply IHe; assumption|]. intros x y z hx. eapply rr_bind; [apply IHf; assumption|]. intros x' y' z' hx'.
    apply (rr_divide true (rel true) (fun q => (0 < q)%Q)); auto using r_mul, r_div, r_pow; [reflexivity|exact prefix_pos].
  - destruct h as (h & h'), hv as (v & v'). eapply rr_bind; [apply IHe; assumption|]. intros x y z hx. eapply rr_bind; [apply IHf; assumption|]. intros x' y' z' hx'.
    apply (rr_add true (rel true)); auto using r_add.
  - eapply rr_bind; [apply IHe; assumption|]. intros x y z hx. apply (rr_power true (rel true)); auto using r_pow.
Qed.
Lemma rel_value pos n x y s : option_map fst s = Some n -> rel pos x y s -> like_value (within u n) x y.
Proof. destruct s as [(m, k)|]; [|discriminate]. cbn. intro e. injection e as ->. intros (a & b & _). split; assumption. Qed.
Lemma rr_like pos n r s c : rr true (relv (rel pos)) r s c -> known pv_size c = Some n -> like (within u n) r s.
Proof.
  intros h hk. destruct h as [x y z h|e c|a b e _]; [|reflexivity|discriminate]. cbn [known] in hk.
  destruct x, y, z; cbn [relv] in h; try contradiction; cbn [like pv_size] in *; try exact I.
  - apply (rel_value pos _ _ _ _ hk h).
  - destruct h as (h1 & h2 & h3 & h4 & h5 & h6 & h7). do 3 (split; [auto|]). apply (rel_value pos _ _ _ _ hk h7).
  - destruct h as (h1 & h2 & h3 & h4 & h5 & h6 & h7). do 3 (split; [auto|]). apply (rel_value pos _ _ _ _ hk h7).
Qed.
Lemma binary_products e n : no_sums e -> leaves held e -> fits allowed sz e = Some n -> like (within u n) (eval e) (beval p enc e).
Proof. intros h hv. apply (rr_like false). apply run_products; assumption. Qed.
Lemma binary_sums e n : only_positive e -> leaves held e -> fits allowed sz e = Some n -> like (within u n) (eval e) (beval p enc e).
Proof. intros h hv. apply (rr_like true). apply run_sums; assumption. Qed.

(** ** Tables and conversions *)
Notation rel0 := (rel false).
Inductive relist3 : table R -> table spec_float -> table size -> Prop :=
| RL3nil : relist3 nil nil nil
| RL3cons n f g k l l' l'' : relc true rel0 f g k -> relist3 l l' l'' -> relist3 ((n, f) :: l) ((n, g) :: l') ((n, k) :: l'').
Lemma relist3_tab l l' l'' : relist3 l l' l'' -> relt true rel0 (Some l) (Some l') (Some l'').
Proof.
  intros h n. assert (k : match dict_get l n, dict_get l' n, dict_get l'' n with
    | Some f, Some g, Some k => relc true rel0 f g k
    | None, None, None => True
    | _, _, _ => False
    end).
  { induction h as [|m f g k l l' l'' h hl IH]; cbn [dict_get]; [exact I|].
    destruct (dict_get l n), (dict_get l' n), (dict_get l'' n); try contradiction; [exact IH|].
    destruct (String.eqb m n); [exact h|exact I]. }
  cbn [tab_get]. destruct (dict_get l n), (dict_get l' n), (dict_get l'' n); try contradiction; [apply rr_ok, k|apply rr_raise].
Qed.
Lemma r0_lit q : rel0 (@nq R Rnum q) (@nq spec_float (Bpow p) q) (@nq size (Snum allowed) q).
Proof. apply r_lit. discriminate. Qed.
Lemma r_times q : relc true rel0 (@times R Rnum q) (@times spec_float (Bpow p) q) (@times size (Snum allowed) q).
Proof. intros x y z h. unfold times. apply rr_ok, r_mul; [exact h|apply r0_lit]. Qed.
Lemma r_overq q : (0 < q)%Q -> forall x y z, rel0 x y z ->
  rel0 (@ndiv R Rnum x (@nq R Rnum q)) (@ndiv spec_float (Bpow p) y (@nq spec_float (Bpow p) q)) (@ndiv size (Snum allowed) z (@nq size (Snum allowed) q)).
Proof. intros hq x y z h. apply r_ndiv; [|exact h|apply r0_lit]. apply Qlt_Rlt in hq. rewrite q2r_0 in hq. cbn. lra. Qed.
Lemma r_over q : (0 < q)%Q -> relc true rel0 (@over R Rnum q) (@over spec_float (Bpow p) q) (@over size (Snum allowed) q).
Proof. intros hq x y z h. unfold over. apply rr_ok, r_overq; assumption. Qed.
Ltac entry := first
  [ apply r_times
  | apply r_over; reflexivity
  | intros ? ? ? ?; apply rr_raise
  | intros ? ? ? ?; apply rr_ok; assumption
  | intros ? ? ? ?; apply rr_ok, r_mul; [apply r_overq; [reflexivity|assumption]|apply r0_lit]
  | intros ? ? ? ?; apply rr_ok, r_mul; [apply r_mul; [assumption|apply r0_lit]|apply r0_lit]
  | idtac ].
Lemma r_tables_to c : c <> Temperature ->
  relt true rel0 (to_standard (@tables0 R Rnum) c) (to_standard (@tables0 spec_float (Bpow p)) c) (to_standard (@tables0 size (Snum allowed)) c).
Proof.
  intro h. destruct c; try congruence; cbn [to_standard tables0 to_standard0]; try (intro n; apply rr_raise);
    (apply relist3_tab; repeat (apply RL3cons; [entry|]); try apply RL3nil).
  intros x y z hx. apply (rr_bind rel0); [apply r_pow, r0_lit|]. intros. apply rr_ok, r_mul; assumption.
Qed.
Lemma r_tables_from c : c <> Temperature ->
  relt true rel0 (from_standard (@tables0 R Rnum) c) (from_standard (@tables0 spec_float (Bpow p)) c) (from_standard (@tables0 size (Snum allowed)) c).
Proof.
  intro h. destruct c; try congruence; cbn [from_standard tables0 from_standard0]; try (intro n; apply rr_raise);
    (apply relist3_tab; repeat (apply RL3cons; [entry|]); try apply RL3nil).
  intros x y z hx.
  assert (k : rr true rel0 (@npow R Rnum (@nq R Rnum (4046873 # 1000)) (Q2Qc (1 # 2))) (@npow spec_float (Bpow p) (@nq spec_float (Bpow p) (4046873 # 1000)) (Q2Qc (1 # 2)))
                (@npow size (Snum allowed) (@nq size (Snum allowed) (4046873 # 1000)) (Q2Qc (1 # 2)))) by apply r_pow, r0_lit.
  pose proof (sqrt_lit_pos (4046873 # 1000)) as nz.
  destruct k as [v w n k|er c|? ? er hl]; [|apply rr_raise|apply rr_lax, hl].
  cbn [bind]. apply rr_ok, r_ndiv; [apply nz; reflexivity|assumption|exact k].
Qed.
Lemma binary_multi m target k n : finite64 (mv m) -> sized k (SFR (mv m)) -> fits_multi allowed k m target = Some n ->
  like (within u n) (rmap VMulti (multi_convert_to tables0 (MO (mc m) (SFR (mv m)) (mtop m) (mbot m)) target)) (rmap VMulti (bmulti p m target)).
Proof.
  intros hf hs hk.
  assert (h : rr true (relm rel0) (multi_convert_to tables0 (MO (mc m) (SFR (mv m)) (mtop m) (mbot m)) target) (bmulti p m target)
     (@multi_convert_to size (Snum allowed) (@tables0 size (Snum allowed)) (MO (mc m) (guard 0 k) (mtop m) (mbot m)) target)).
  { unfold bmulti. apply (rr_convert true rel0 (fun _ => True)); auto using r0_lit, r_mul, r_div, r_pow, r_tables_to, r_tables_from.
    unfold relm. cbn [mc mv mtop mbot]. repeat (split; [reflexivity|]). apply rel_guard. intros _ _. repeat (split; [first [assumption|apply within_0]|]). discriminate. }
  unfold fits_multi in hk. destruct h as [x y z h|e c|a b e _]; [|reflexivity|discriminate].
  destruct h as (h1 & h2 & h3 & h4 & h5 & h6 & h7). cbn [rmap bind like]. do 3 (split; [auto|]). apply (rel_value false _ _ _ _ hk h7).
Qed.
Lemma binary_unit w target k n : uc w <> Temperature -> finite64 (uv w) -> sized k (SFR (uv w)) -> fits_unit allowed k w target = Some n ->
  like (within u n) (rmap VUnit (unit_convert_to tables0 (UO (uc w) (SFR (uv w)) (un w) (ue w)) target)) (rmap VUnit (bunit p w target)).
Proof.
  intros ht hf hs hk.
  assert (h : rr true (relu rel0) (unit_convert_to tables0 (UO (uc w) (SFR (uv w)) (un w) (ue w)) target) (bunit p w target)
     (@unit_convert_to size (Snum allowed) (@tables0 size (Snum allowed)) (UO (uc w) (guard 0 k) (un w) (ue w)) target)).
  { unfold bunit. apply (rr_unit_convert true rel0); auto using r_pow, r_tables_to, r_tables_from.
    unfold relu. cbn [uc uv un ue]. repeat (split; [reflexivity|]). apply rel_guard. intros _ _. repeat (split; [first [assumption|apply within_0]|]). discriminate. }
  unfold fits_unit in hk. destruct h as [x y z h|e c|a b e _]; [|reflexivity|discriminate].
  destruct h as (h1 & h2 & h3 & h4 & h5 & h6 & h7). cbn [rmap bind like]. do 3 (split; [auto|]). apply (rel_value false _ _ _ _ hk h7).
Qed.
End Run.
