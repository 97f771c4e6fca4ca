(** * EosFloatCalls: the parameters of the equations of state in binary64 *)
From Coq Require Import String List ZArith QArith Qcanon Bool Reals Qreals Lra Lia.
From Coq Require Import Floats.SpecFloat.
From Verif Require Import Py Num NumFacts UnitsData UnitsStruct Units Expr Rounding RoundSpec RoundFacts RoundErr RoundCases Range RangeSpec FloatExp FloatRound B64Facts RangeFacts B64Spec B64Full WaterFloatFacts Eos EosSpec EosFacts EosFoundSpec EosLiquid EosFloatSpec EosFloat EosFloatLiquid.
Local Open Scope string_scope.
Local Open Scope R_scope.
Local Notation p2 := (powerRZ 2).

Section Calls.
Variables (u : R) (allowed : Qc -> bool) (p : spec_float -> Qc -> res spec_float).
Hypothesis hu : / 2 ^ 53 <= u <= / 2 ^ 40.
Hypothesis hp : pow_good u allowed p.
Notation B := (Bpow p).
Notation rel := (rel u true).
Let us := u_small u hu.
Lemma ordinary_rel k x : (0 <= k <= 100)%Z -> ordinary k x -> rel (SFR x) x (Some (O, k)).
Proof.
  intros hk [f h]. pose proof (p2_gt (- k)). unfold RangeFacts.rel. split; [exact f|]. split; [apply within_0|]. split; [right; rewrite Rabs_pos_eq by lra; exact h|].
  split; [lia|]. split; [lia|]. intros _. lra.
Qed.
Lemma b_same (c : ucls) n x y : finite64 y -> SFR y <> 0 -> @py_div spec_float B (VUnit (UO c x n (eint 1))) (VUnit (UO c y n (eint 1))) = Ok (VNum (SFdiv 53 1024 x y)).
Proof. intros h1 h2. unfold py_div, unit_div, pydiv. cbn [uv un uc ue neqb nq Bpow ndiv]. rewrite b_test by assumption. cbn [bind]. rewrite String.eqb_refl. reflexivity. Qed.
Variables (T P Tc Pc : spec_float) (K : Z).
Hypothesis hK : (0 <= K <= 100)%Z.
Hypothesis oT : ordinary K T.
Hypothesis oP : ordinary K P.
Hypothesis oTc : ordinary K Tc.
Hypothesis oPc : ordinary K Pc.
Let t := SFR T / SFR Tc.
Let pr := SFR P / SFR Pc.
Let tf := SFdiv 53 1024 T Tc.
Let pf := SFdiv 53 1024 P Pc.
Lemma pos_of x : ordinary K x -> 0 < SFR x.
Proof. intros [_ h]. pose proof (p2_gt (- K)). lra. Qed.
Lemma rel_ratio x y : ordinary K x -> ordinary K y -> rel (SFR x / SFR y) (SFdiv 53 1024 x y) (Some (1%nat, (K + K)%Z)).
Proof.
  intros hx hy. pose proof (pos_of _ hy) as h. pose proof (r_ndiv u allowed p hu true _ _ _ _ _ _ (Rgt_not_eq _ _ h) (ordinary_rel K x hK hx) (ordinary_rel K y hK hy)) as r.
  cbn [ndiv Rnum Bpow Snum s_prod] in r. rewrite guard_ok in r by lia. exact r.
Qed.
Definition rel_t : rel t tf (Some (1%nat, (K + K)%Z)) := rel_ratio T Tc oT oTc.
Definition rel_p : rel pr pf (Some (1%nat, (K + K)%Z)) := rel_ratio P Pc oP oPc.
Lemma rel_alpha : allowed (ev e_mhalf) = true -> exists af, p tf (ev e_mhalf) = Ok af /\ rel (/ sqrt t) af (Some (2%nat, (K + K)%Z)).
Proof.
  intro ha. pose proof (r_pow u allowed p hu hp true (ev e_mhalf) _ _ _ rel_t) as h. cbn [npow Snum Rnum Bpow] in h. rewrite ha in h.
  change (S (repeats (ev e_mhalf) * 1)) with 2%nat in h. change (Z.of_nat (repeats (ev e_mhalf)) * (K + K))%Z with (1 * (K + K))%Z in h. rewrite Z.mul_1_l, guard_ok in h by lia.
  destruct (rel_nz u hu _ _ _ rel_t) as (_ & _ & ht). pose proof (mhalf_pow t ht) as hm. unfold py_pow in hm. cbn [npow Rnum] in hm.
  destruct (Rpowq t (ev e_mhalf)) as [v|] eqn:ev; [|discriminate hm]. unfold rmap in hm. cbn [bind] in hm. injection hm as ->.
  inversion h as [x y z hr e1 e2 e3| |]. exists y. split; [symmetry; exact e2|]. exact hr.
Qed.
(** The pieces put together: [psi] is the first factor of q, [af] the second. *)
Lemma parts (om psi : Q) k n' k' kp (al : R) (af : spec_float) : (0 < om)%Q -> (0 < psi)%Q ->
  @nq size (Snum allowed) om = Some (1%nat, k) -> @nq size (Snum allowed) psi = Some (1%nat, kp) -> (1 <= k <= 5)%Z -> (0 <= kp <= 5)%Z ->
  rel al af (Some (n', k')) -> (n' <= 2)%nat -> (0 <= k' <= K + K)%Z ->
  let b := Q2R om * (pr / t) in let q := Q2R psi * al / (Q2R om * t) in
  let bf := SFmul 53 1024 (f_lit om) (SFdiv 53 1024 pf tf) in
  let lf := SFmul 53 1024 (f_lit om) tf in
  let qf := SFdiv 53 1024 (SFmul 53 1024 (f_lit psi) af) lf in
  finite64 lf /\ SFR lf <> 0 /\ exists kb nA kA, (1 <= kb <= 5 + 4 * K)%Z /\ (nA <= 14)%nat /\ (0 <= kA <= 15 + 8 * K)%Z /\
    rel b bf (Some (5%nat, kb)) /\ rel (q * b) (SFmul 53 1024 qf bf) (Some (nA, kA)).
Proof.
  intros ho hpsi so sp hk hkp ra hn hk' b q bf lf qf. destruct (rel_nz u hu _ _ _ rel_t) as (ft & nt & ht).
  pose proof (r_lit u allowed p hu true psi ltac:(intro; assumption)) as lp. pose proof (r_lit u allowed p hu true om ltac:(intro; assumption)) as lo. rewrite sp in lp. rewrite so in lo.
  pose proof (r_ndiv u allowed p hu true _ _ _ _ _ _ (Rgt_not_eq _ _ ht) rel_p rel_t) as r2. cbn [ndiv Rnum Bpow Snum s_prod] in r2. rewrite guard_ok in r2 by lia.
  pose proof (r_mul u allowed p hu true _ _ _ _ _ _ lo r2) as rb. pose proof (r_mul u allowed p hu true _ _ _ _ _ _ lp ra) as ru. pose proof (r_mul u allowed p hu true _ _ _ _ _ _ lo rel_t) as rl.
  cbn [nmul Rnum Bpow nq Snum s_prod] in rb, ru, rl. rewrite guard_ok in rb, ru, rl by lia. destruct (rel_nz u hu _ _ _ rl) as (fl & nl & hl).
  pose proof (r_ndiv u allowed p hu true _ _ _ _ _ _ (Rgt_not_eq _ _ hl) ru rl) as rq. cbn [ndiv Rnum Bpow Snum s_prod] in rq. rewrite guard_ok in rq by lia.
  pose proof (r_mul u allowed p hu true _ _ _ _ _ _ rq rb) as rA. cbn [nmul Rnum Bpow Snum s_prod] in rA. rewrite guard_ok in rA by lia.
  split; [exact fl|]. split; [exact nl|]. eexists _, _, _. split; [|split; [|split; [|split; [exact rb|exact rA]]]]; lia.
Qed.
(** The errors of the parameters, for the vapor iteration. *)
Lemma small_err n k x y : rel x y (Some (n, k)) -> (n <= 14)%nat -> finite64 y /\ Rabs (SFR y - x) <= 14.01 * u * x.
Proof.
  intros h hn. destruct (rel_err u hu _ _ _ _ h ltac:(lia)) as [f g]. split; [exact f|]. apply Rle_trans with (1 := g). destruct (rel_nz u hu _ _ _ h) as (_ & _ & px).
  apply Rmult_le_compat_r; [lra|]. apply Rmult_le_compat_r; [apply Rlt_le, us|]. replace 14.01 with (INR 14 + 0.01) by (cbn; lra). apply Rplus_le_compat_r, le_INR. lia.
Qed.
Lemma beta_err k x y : rel x y (Some (5%nat, k)) -> finite64 y /\ Rabs (SFR y - x) <= 5.01 * u * x.
Proof. intro h. destruct (rel_err u hu _ _ _ _ h ltac:(lia)) as [f g]. split; [exact f|]. apply Rle_trans with (1 := g). cbn [INR]. lra. Qed.
Lemma vapor_found law call b q bf qf kb nA kA fl l : 0 < b <= 1 / 2 -> 0 < q * b <= 1 / 5 ->
  rel b bf (Some (5%nat, kb)) -> rel (q * b) (SFmul 53 1024 qf bf) (Some (nA, kA)) -> (nA <= 14)%nat ->
  (forall z, cubic b q z <-> compressibility law (SFR T) (SFR P) (SFR Tc) (SFR Pc) z) ->
  (forall n, call n = @solve_state spec_float B "vapor" (@vapor_rhs _ B (VNum bf) (VNum qf)) (@vapor_rhs _ B (VNum bf) (VNum qf)) fl l (VNum bf) n) ->
  finds_greatest64 law T P Tc Pc call (fun n => (4 * (q * b)) ^ S n / 2 + 150 * u).
Proof.
  intros hb hk rb rA hn hl hc. destruct (beta_err _ _ _ rb) as [fb nb]. destruct (small_err _ _ _ _ rA hn) as [fA nA'].
  destruct (cubic_exists b q hb hk) as (z & hz & hz2). exists z. split; [exact (proj1 hz)|]. split; [apply hl; assumption|]. split.
  - intros z' h'. apply hl in h'. exact (cubic_unique b q hb hk z z' hz2 h' (proj1 hz)).
  - intros n h0. rewrite hc. exact (float_vapor u p hu b q bf qf hb hk fb nb fA nA' fl l (VNum bf) z n hz2 hz).
Qed.
Lemma liquid_found law call b q bf qf kb nA kA fv v : 0 < b <= 8 / 11 -> 6 <= q -> (1 <= kb <= 210)%Z -> (0 <= kA <= 420)%Z ->
  rel b bf (Some (5%nat, kb)) -> rel (q * b) (SFmul 53 1024 qf bf) (Some (nA, kA)) -> (nA <= 14)%nat ->
  (forall z, cubic b q z <-> compressibility law (SFR T) (SFR P) (SFR Tc) (SFR Pc) z) ->
  (forall n, call n = @solve_state spec_float B "liquid" fv v (@liquid_rhs _ B (VNum bf) (VNum qf)) (@liquid_rhs _ B (VNum bf) (VNum qf)) (VNum bf) n) ->
  finds_least64 law T P Tc Pc call b (fun n => (5.01 / q) ^ S n * b + 900 * u * b).
Proof.
  intros hb hq h1 h2 rb rA hn hl hc. destruct (liquid_exists b q hb hq) as (z & hz & hz2). exists z. split; [exact hz|]. split; [apply hl; assumption|]. split.
  - intros z' h' pz. apply hl in h'. exact (liquid_least b q hb hq z z' ltac:(lra) hz2 h' pz).
  - intros n h0. rewrite hc. exact (float_liquid u allowed p hu b q bf qf kb kA hb hq h1 h2 rb nA hn rA fv v z n hz2 ltac:(lra)).
Qed.
Lemma rk_float_call tn pn st n af : p tf (ev e_mhalf) = Ok af -> finite64 tf -> SFR tf <> 0 ->
  let bf := SFmul 53 1024 (f_lit (8664 # 100000)) (SFdiv 53 1024 pf tf) in
  let lf := SFmul 53 1024 (f_lit (8664 # 100000)) tf in
  let qf := SFdiv 53 1024 (SFmul 53 1024 (f_lit (42748 # 100000)) af) lf in
  finite64 lf -> SFR lf <> 0 ->
  @rendlich_kwong spec_float B (temp64 tn T) (pres64 pn P) (temp64 tn Tc) (pres64 pn Pc) st n =
  @solve_state spec_float B st (@vapor_rhs _ B (VNum bf) (VNum qf)) (@vapor_rhs _ B (VNum bf) (VNum qf)) (@liquid_rhs _ B (VNum bf) (VNum qf)) (@liquid_rhs _ B (VNum bf) (VNum qf)) (VNum bf) n.
Proof.
  intros ea ft nt bf lf qf fl nl. destruct oTc as [f1 _]. destruct oPc as [f2 _]. pose proof (pos_of _ oTc) as h1. pose proof (pos_of _ oPc) as h2.
  unfold rendlich_kwong, temp64, pres64. unfold lift2 at 1. cbn [bind]. rewrite b_same by (try assumption; lra). cbn [bind]. unfold lift2 at 1. cbn [bind]. rewrite b_same by (try assumption; lra). cbn [bind].
  fold tf pf. unfold py_pow. cbn [npow Bpow]. rewrite ea. unfold rmap. cbn [bind]. unfold lift2 at 1 2, num at 1. cbn [bind]. rewrite b_div by assumption. cbn [bind]. rewrite b_mul. cbn [bind].
  unfold lift2 at 1 2 3, num at 1 2. cbn [bind nq Bpow]. rewrite !b_mul. cbn [bind]. fold lf. rewrite b_div by assumption. cbn [bind]. reflexivity.
Qed.
Lemma vdw_float_call tn pn st n : finite64 tf -> SFR tf <> 0 ->
  let bf := SFmul 53 1024 (f_lit (1 # 8)) (SFdiv 53 1024 pf tf) in
  let lf := SFmul 53 1024 (f_lit (1 # 8)) tf in
  let qf := SFdiv 53 1024 (SFmul 53 1024 (f_lit (27 # 64)) (f_lit 1)) lf in
  finite64 lf -> SFR lf <> 0 ->
  @van_der_waals spec_float B (temp64 tn T) (pres64 pn P) (temp64 tn Tc) (pres64 pn Pc) st n =
  @solve_state spec_float B st (@vapor_rhs _ B (VNum bf) (VNum qf)) (@vapor_rhs _ B (VNum bf) (VNum qf)) (@liquid_rhs _ B (VNum bf) (VNum qf)) (@liquid_rhs _ B (VNum bf) (VNum qf)) (VNum bf) n.
Proof.
  intros ft nt bf lf qf fl nl. destruct oTc as [f1 _]. destruct oPc as [f2 _]. pose proof (pos_of _ oTc) as h1. pose proof (pos_of _ oPc) as h2.
  unfold van_der_waals, temp64, pres64. unfold lift2 at 1. cbn [bind]. rewrite b_same by (try assumption; lra). cbn [bind]. unfold lift2 at 1. cbn [bind]. rewrite b_same by (try assumption; lra). cbn [bind].
  fold tf pf. unfold lift2 at 1 2, num at 1. cbn [bind]. rewrite b_div by assumption. cbn [bind]. rewrite b_mul. cbn [bind].
  unfold lift2 at 1 2 3, num at 1 2 3. cbn [bind nq Bpow]. rewrite !b_mul. cbn [bind]. fold lf. rewrite b_div by assumption. cbn [bind]. reflexivity.
Qed.
Lemma rk_parts : allowed (ev e_mhalf) = true -> exists bf qf, let b := 0.08664 * (pr / t) in let q := 0.42748 * / sqrt t / (0.08664 * t) in
  0 < t /\ 0 < sqrt t /\ 0 < pr / t /\
  (exists kb nA kA, (1 <= kb <= 5 + 4 * K)%Z /\ (nA <= 14)%nat /\ (0 <= kA <= 15 + 8 * K)%Z /\ rel b bf (Some (5%nat, kb)) /\ rel (q * b) (SFmul 53 1024 qf bf) (Some (nA, kA))) /\
  (forall z, cubic b q z <-> compressibility redlich_kwong_law (SFR T) (SFR P) (SFR Tc) (SFR Pc) z) /\
  forall tn pn st n, @rendlich_kwong spec_float B (temp64 tn T) (pres64 pn P) (temp64 tn Tc) (pres64 pn Pc) st n =
    @solve_state spec_float B st (@vapor_rhs _ B (VNum bf) (VNum qf)) (@vapor_rhs _ B (VNum bf) (VNum qf)) (@liquid_rhs _ B (VNum bf) (VNum qf)) (@liquid_rhs _ B (VNum bf) (VNum qf)) (VNum bf) n.
Proof.
  intros ha. pose proof (pos_of _ oT) as qT. pose proof (pos_of _ oP) as qP. pose proof (pos_of _ oTc) as qTc. pose proof (pos_of _ oPc) as qPc.
  destruct (rel_nz u hu _ _ _ rel_t) as (ft & nt & ht). destruct (rel_nz u hu _ _ _ rel_p) as (fp & np & hpr). pose proof (sqrt_lt_R0 _ ht) as hs.
  destruct (rel_alpha ha) as (af & ea & ra).
  destruct (parts (8664 # 100000) (42748 # 100000) 4 2 (K + K) 2 (/ sqrt t) af ltac:(reflexivity) ltac:(reflexivity) ltac:(reflexivity) ltac:(reflexivity) ltac:(lia) ltac:(lia) ra ltac:(lia) ltac:(lia)) as (fl & nl & hr).
  replace (Q2R (8664 # 100000)) with 0.08664 in hr by q2r. replace (Q2R (42748 # 100000)) with 0.42748 in hr by q2r.
  eexists _, _. split; [exact ht|]. split; [exact hs|]. split; [apply Rdiv_lt_0_compat; assumption|]. split; [exact hr|].
  split; [intro z; apply rk_root; assumption|]. intros tn pn st n. apply rk_float_call; assumption.
Qed.
Lemma vdw_parts : exists bf qf, let b := 1 / 8 * (pr / t) in let q := 27 / 64 * 1 / (1 / 8 * t) in
  0 < t /\ 0 < pr / t /\
  (exists kb nA kA, (1 <= kb <= 5 + 4 * K)%Z /\ (nA <= 14)%nat /\ (0 <= kA <= 15 + 8 * K)%Z /\ rel b bf (Some (5%nat, kb)) /\ rel (q * b) (SFmul 53 1024 qf bf) (Some (nA, kA))) /\
  (forall z, cubic b q z <-> compressibility (kwong_form (1 / 8) (27 / 64)) (SFR T) (SFR P) (SFR Tc) (SFR Pc) z) /\
  forall tn pn st n, @van_der_waals spec_float B (temp64 tn T) (pres64 pn P) (temp64 tn Tc) (pres64 pn Pc) st n =
    @solve_state spec_float B st (@vapor_rhs _ B (VNum bf) (VNum qf)) (@vapor_rhs _ B (VNum bf) (VNum qf)) (@liquid_rhs _ B (VNum bf) (VNum qf)) (@liquid_rhs _ B (VNum bf) (VNum qf)) (VNum bf) n.
Proof.
  pose proof (pos_of _ oT) as qT. pose proof (pos_of _ oP) as qP. pose proof (pos_of _ oTc) as qTc. pose proof (pos_of _ oPc) as qPc.
  destruct (rel_nz u hu _ _ _ rel_t) as (ft & nt & ht). destruct (rel_nz u hu _ _ _ rel_p) as (fp & np & hpr).
  destruct (parts (1 # 8) (27 # 64) 4 0 0 3 1 (f_lit 1) ltac:(reflexivity) ltac:(reflexivity) ltac:(reflexivity) ltac:(reflexivity) ltac:(lia) ltac:(lia) (rel_one u allowed p hu) ltac:(lia) ltac:(lia)) as (fl & nl & hr).
  replace (Q2R (1 # 8)) with (1 / 8) in hr by q2r. replace (Q2R (27 # 64)) with (27 / 64) in hr by q2r.
  eexists _, _. split; [exact ht|]. split; [apply Rdiv_lt_0_compat; assumption|]. split; [exact hr|].
  split. { intro z. replace (kwong_form (1 / 8) (27 / 64)) with (kwong_form (1 / 8) (27 / 64 * 1)) by (f_equal; ring). apply form_iff; try assumption; lra. }
  intros tn pn st n. apply vdw_float_call; assumption.
Qed.
Theorem rk_float tn pn : allowed (ev e_mhalf) = true ->
  let k := 0.42748 * pr / (t ^ 2 * sqrt t) in 0.08664 * pr <= 1 / 2 * t -> k <= 1 / 5 ->
  finds_greatest64 redlich_kwong_law T P Tc Pc (@rendlich_kwong spec_float B (temp64 tn T) (pres64 pn P) (temp64 tn Tc) (pres64 pn Pc) "vapor")
    (fun n => (4 * k) ^ S n / 2 + 150 * u).
Proof.
  intros ha k h1 h2. destruct (rk_parts ha) as (bf & qf & ht & hs & hpt & (kb & nA & kA & _ & hn & _ & rb & rA) & hl & hc).
  set (b := 0.08664 * (pr / t)) in *. set (q := 0.42748 * / sqrt t / (0.08664 * t)) in *.
  assert (ek : q * b = k) by (unfold q, b, k; field; lra).
  assert (hb : 0 < b <= 1 / 2).
  { unfold b. split; [nra|]. apply (Rmult_le_reg_r t); [exact ht|]. replace (0.08664 * (pr / t) * t) with (0.08664 * pr) by (field; lra). exact h1. }
  assert (hk : 0 < q * b <= 1 / 5).
  { rewrite ek. split; [|exact h2]. rewrite <- ek. apply Rmult_lt_0_compat; [|lra]. unfold q. apply Rdiv_lt_0_compat; [apply Rmult_lt_0_compat; [lra|apply Rinv_0_lt_compat, hs]|lra]. }
  rewrite <- ek. exact (vapor_found _ _ b q bf qf kb nA kA _ _ hb hk rb rA hn hl (fun n => hc tn pn "vapor" n)).
Qed.
Theorem vdw_float tn pn : let k := 27 / 64 * pr / t ^ 2 in 1 / 8 * pr <= 1 / 2 * t -> k <= 1 / 5 ->
  finds_greatest64 (kwong_form (1 / 8) (27 / 64)) T P Tc Pc (@van_der_waals spec_float B (temp64 tn T) (pres64 pn P) (temp64 tn Tc) (pres64 pn Pc) "vapor")
    (fun n => (4 * k) ^ S n / 2 + 150 * u).
Proof.
  intros k h1 h2. destruct vdw_parts as (bf & qf & ht & hpt & (kb & nA & kA & _ & hn & _ & rb & rA) & hl & hc).
  set (b := 1 / 8 * (pr / t)) in *. set (q := 27 / 64 * 1 / (1 / 8 * t)) in *.
  assert (ek : q * b = k) by (unfold q, b, k; field; lra).
  assert (hb : 0 < b <= 1 / 2).
  { unfold b. split; [lra|]. apply (Rmult_le_reg_r t); [exact ht|]. replace (1 / 8 * (pr / t) * t) with (1 / 8 * pr) by (field; lra). exact h1. }
  assert (hk : 0 < q * b <= 1 / 5).
  { rewrite ek. split; [|exact h2]. rewrite <- ek. apply Rmult_lt_0_compat; [|lra]. unfold q. apply Rdiv_lt_0_compat; lra. }
  rewrite <- ek. exact (vapor_found _ _ b q bf qf kb nA kA _ _ hb hk rb rA hn hl (fun n => hc tn pn "vapor" n)).
Qed.
Hypothesis hK2 : (K <= 50)%Z.
Theorem rk_float_liquid tn pn : allowed (ev e_mhalf) = true ->
  let q := 0.42748 / sqrt t / (0.08664 * t) in let b := 0.08664 * (pr / t) in 6 <= q -> b <= 8 / 11 ->
  finds_least64 redlich_kwong_law T P Tc Pc (@rendlich_kwong spec_float B (temp64 tn T) (pres64 pn P) (temp64 tn Tc) (pres64 pn Pc) "liquid") b
    (fun n => (5.01 / q) ^ S n * b + 900 * u * b).
Proof.
  intros ha q b h1 h2. destruct (rk_parts ha) as (bf & qf & ht & hs & hpt & (kb & nA & kA & h3 & hn & h4 & rb & rA) & hl & hc).
  assert (hb : 0 < b <= 8 / 11) by (split; [unfold b; lra|exact h2]).
  exact (liquid_found _ _ b q bf qf kb nA kA _ _ hb h1 ltac:(lia) ltac:(lia) rb rA hn hl (fun n => hc tn pn "liquid" n)).
Qed.
Theorem vdw_float_liquid tn pn : let q := 27 / 64 / (1 / 8 * t) in let b := 1 / 8 * (pr / t) in 6 <= q -> b <= 8 / 11 ->
  finds_least64 (kwong_form (1 / 8) (27 / 64)) T P Tc Pc (@van_der_waals spec_float B (temp64 tn T) (pres64 pn P) (temp64 tn Tc) (pres64 pn Pc) "liquid") b
    (fun n => (5.01 / q) ^ S n * b + 900 * u * b).
Proof.
  intros q b h1 h2. destruct vdw_parts as (bf & qf & ht & hpt & (kb & nA & kA & h3 & hn & h4 & rb & rA) & hl & hc).
  assert (eq : 27 / 64 * 1 / (1 / 8 * t) = q) by (unfold q; field; lra). rewrite eq in rA, hl.
  assert (hb : 0 < b <= 8 / 11) by (split; [unfold b; lra|exact h2]).
  exact (liquid_found _ _ b q bf qf kb nA kA _ _ hb h1 ltac:(lia) ltac:(lia) rb rA hn hl (fun n => hc tn pn "liquid" n)).
Qed.
End Calls.

Section Final.
Variables (u : R) (allowed : Qc -> bool) (p : spec_float -> Qc -> res spec_float).
Hypothesis hu : / 2 ^ 53 <= u <= / 2 ^ 40.
Hypothesis hp : pow_good u allowed p.
Hypothesis ha : allowed (ev e_mhalf) = true.
Notation B := (Bpow p).
Theorem rk_float64 tn pn T P Tc Pc : ordinary 100 T -> ordinary 100 P -> ordinary 100 Tc -> ordinary 100 Pc ->
  let t := SFR T / SFR Tc in let r := SFR P / SFR Pc in let k := 0.42748 * r / (t ^ 2 * sqrt t) in
  0.08664 * r <= 1 / 2 * t -> k <= 1 / 5 ->
  finds_greatest64 redlich_kwong_law T P Tc Pc (@rendlich_kwong spec_float B (temp64 tn T) (pres64 pn P) (temp64 tn Tc) (pres64 pn Pc) "vapor") (fun n => (4 * k) ^ S n / 2 + 150 * u).
Proof. intros oT oP oTc oPc. exact (rk_float u allowed p hu hp T P Tc Pc 100 ltac:(lia) oT oP oTc oPc tn pn ha). Qed.
Theorem rk_liquid64 tn pn T P Tc Pc : ordinary 50 T -> ordinary 50 P -> ordinary 50 Tc -> ordinary 50 Pc ->
  let t := SFR T / SFR Tc in let r := SFR P / SFR Pc in let q := 0.42748 / sqrt t / (0.08664 * t) in let b := 0.08664 * (r / t) in
  6 <= q -> b <= 8 / 11 ->
  finds_least64 redlich_kwong_law T P Tc Pc (@rendlich_kwong spec_float B (temp64 tn T) (pres64 pn P) (temp64 tn Tc) (pres64 pn Pc) "liquid") b (fun n => (5.01 / q) ^ S n * b + 900 * u * b).
Proof. intros oT oP oTc oPc. exact (rk_float_liquid u allowed p hu hp T P Tc Pc 50 ltac:(lia) oT oP oTc oPc ltac:(lia) tn pn ha). Qed.
End Final.
Lemma u53 : / 2 ^ 53 <= / 2 ^ 53 <= / 2 ^ 40.
Proof. split; [lra|]. apply Rinv_le_contravar; [apply pow_lt; lra|]. apply Rle_pow; [lra|lia]. Qed.
Theorem vdw_float64 p tn pn T P Tc Pc : ordinary 100 T -> ordinary 100 P -> ordinary 100 Tc -> ordinary 100 Pc ->
  let t := SFR T / SFR Tc in let r := SFR P / SFR Pc in let k := 27 / 64 * r / t ^ 2 in
  1 / 8 * r <= 1 / 2 * t -> k <= 1 / 5 ->
  finds_greatest64 (kwong_form (1 / 8) (27 / 64)) T P Tc Pc (@van_der_waals spec_float (Bpow p) (temp64 tn T) (pres64 pn P) (temp64 tn Tc) (pres64 pn Pc) "vapor") (fun n => (4 * k) ^ S n / 2 + 150 * / 2 ^ 53).
Proof. intros oT oP oTc oPc. exact (vdw_float (/ 2 ^ 53) (fun _ => false) p u53 T P Tc Pc 100 ltac:(lia) oT oP oTc oPc tn pn). Qed.
Theorem vdw_liquid64 p tn pn T P Tc Pc : ordinary 50 T -> ordinary 50 P -> ordinary 50 Tc -> ordinary 50 Pc ->
  let t := SFR T / SFR Tc in let r := SFR P / SFR Pc in let q := 27 / 64 / (1 / 8 * t) in let b := 1 / 8 * (r / t) in
  6 <= q -> b <= 8 / 11 ->
  finds_least64 (kwong_form (1 / 8) (27 / 64)) T P Tc Pc (@van_der_waals spec_float (Bpow p) (temp64 tn T) (pres64 pn P) (temp64 tn Tc) (pres64 pn Pc) "liquid") b (fun n => (5.01 / q) ^ S n * b + 900 * / 2 ^ 53 * b).
Proof. intros oT oP oTc oPc. exact (vdw_float_liquid (/ 2 ^ 53) (fun _ => false) p u53 T P Tc Pc 50 ltac:(lia) oT oP oTc oPc ltac:(lia) tn pn). Qed.
