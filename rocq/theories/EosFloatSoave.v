(** * EosFloatSoave: Soave's equation of state in binary64 *)
From Coq Require Import String List ZArith QArith Qcanon Bool Reals Qreals Lra Lia.
From Coq Require Import Floats.SpecFloat.
From Verif Require Import Py Num NumFacts UnitsData UnitsStruct Units Expr Rounding RoundSpec RoundFacts RoundErr RoundCases Range RangeSpec FloatExp FloatRound B64Facts RangeFacts B64Spec B64Full WaterFloatFacts Eos EosSpec EosFacts EosFoundSpec EosLiquid EosFloatSpec EosFloat EosFloatLiquid EosFloatCalls EosFloatAlpha.
Local Open Scope string_scope.
Local Open Scope R_scope.
Local Notation p2 := (powerRZ 2).

Section Calls.
Variables (u : R) (allowed : Qc -> bool) (p : spec_float -> Qc -> res spec_float).
Hypothesis hu : / 2 ^ 53 <= u <= / 2 ^ 46.
Hypothesis hp : pow_good u allowed p.
Hypothesis hh : allowed (ev e_half) = true.
Hypothesis h2 : allowed (ev (eint 2)) = true.
Notation B := (Bpow p).
Lemma hu40 : / 2 ^ 53 <= u <= / 2 ^ 40.
Proof. split; [apply hu|]. apply Rle_trans with (1 := proj2 hu). apply Rinv_le_contravar; [apply pow_lt; lra|]. apply Rle_pow; [lra|lia]. Qed.
Lemma hu50 : / 2 ^ 53 <= 50 * u <= / 2 ^ 40.
Proof.
  assert (0 < / 2 ^ 53) by (apply Rinv_0_lt_compat, pow_lt; lra). split; [lra|]. apply Rle_trans with (2 ^ 6 * / 2 ^ 46).
  - assert (0 < / 2 ^ 46) by (apply Rinv_0_lt_compat, pow_lt; lra). cbn [pow] in *. lra.
  - right. replace (2 ^ 46) with (2 ^ 6 * 2 ^ 40) by (rewrite <- pow_add; reflexivity). rewrite Rinv_mult, <- Rmult_assoc, Rinv_r by (apply pow_nonzero; lra). apply Rmult_1_l.
Qed.
Let us := u_small u hu40.
Lemma err_rel x y k : 0 < x -> finite64 y -> Rabs (SFR y - x) <= 99 * u * x -> sized k x -> (0 <= k <= 1000)%Z -> rel (50 * u) true x y (Some (2%nat, k)).
Proof.
  intros hx fy h hs hk. pose proof us as us'. unfold rel. split; [exact fy|]. split; [|split; [exact hs|split; [exact hk|split; [lia|intro; exact hx]]]].
  exists (SFR y / x). split; [|field; lra]. apply abs_le in h.
  assert (r : 1 - 99 * u <= SFR y / x <= 1 + 99 * u). { split; apply (Rmult_le_reg_r x); try exact hx; unfold Rdiv; rewrite (Rmult_assoc (SFR y)), Rinv_l by lra; lra. }
  assert (e : (1 - 50 * u) ^ 2 = 1 - 100 * u + 2500 * (u * u)) by ring. assert (huu : 0 <= u * u <= u / 1000000) by nra. rewrite e. split; [lra|]. apply Rle_trans with (1 := proj2 r).
  apply (Rmult_le_reg_r (1 - 100 * u + 2500 * (u * u))); [lra|]. rewrite Rinv_l by lra. nra.
Qed.
Variables (T P Tc Pc w : spec_float) (K : Z).
Hypothesis hK : (2 <= K <= 100)%Z.
Hypothesis oT : ordinary K T.
Hypothesis oP : ordinary K P.
Hypothesis oTc : ordinary K Tc.
Hypothesis oPc : ordinary K Pc.
Hypothesis fw : finite64 w.
Hypothesis sw : sized 100 (SFR w).
Hypothesis hw : Rabs (SFR w) <= 1.
Let t := SFR T / SFR Tc.
Let pr := SFR P / SFR Pc.
Let tf := SFdiv 53 1024 T Tc.
Let pf := SFdiv 53 1024 P Pc.
Hypothesis ht4 : t <= 4.
Let y := 1 + (0.480 + 1.574 * SFR w - 0.176 * SFR w ^ 2) * (1 - sqrt t).
Hypothesis hy : 1 / 2 <= y.
Lemma srk_float_call tn pn st n af : @soave_alpha spec_float B (480 # 1000) (1574 # 1000) (176 # 1000) (VNum w) (VNum tf) = Ok (VNum af) -> finite64 tf -> SFR tf <> 0 ->
  let bf := SFmul 53 1024 (f_lit (8664 # 100000)) (SFdiv 53 1024 pf tf) in
  let lf := SFmul 53 1024 (f_lit (8664 # 100000)) tf in
  let qf := SFdiv 53 1024 (SFmul 53 1024 (f_lit (42748 # 100000)) af) lf in
  finite64 lf -> SFR lf <> 0 ->
  @soave_rendlich_kwong spec_float B (temp64 tn T) (pres64 pn P) (temp64 tn Tc) (pres64 pn Pc) st (VNum w) n =
  @solve_state spec_float B st (@vapor_rhs _ B (VNum bf) (VNum qf)) (@vapor_rhs _ B (VNum bf) (VNum qf)) (@liquid_rhs _ B (VNum bf) (VNum qf)) (@liquid_rhs _ B (VNum bf) (VNum qf)) (VNum bf) n.
Proof.
  intros ea ft nt bf lf qf fl nl. destruct oTc as [f1 _]. destruct oPc as [f2 _]. pose proof (pos_of _ _ oTc) as h1. pose proof (pos_of _ _ oPc) as h3.
  unfold soave_rendlich_kwong, temp64, pres64. unfold lift2 at 1. cbn [bind]. rewrite b_same by (try assumption; lra). cbn [bind]. unfold lift2 at 1. cbn [bind]. rewrite b_same by (try assumption; lra). cbn [bind].
  fold tf pf. rewrite ea. cbn [bind]. unfold lift2 at 1 2, num at 1. cbn [bind]. rewrite b_div by assumption. cbn [bind]. rewrite b_mul. cbn [bind].
  unfold lift2 at 1 2 3, num at 1 2. cbn [bind nq Bpow]. rewrite !b_mul. cbn [bind]. fold lf. rewrite b_div by assumption. cbn [bind]. reflexivity.
Qed.
Notation rel := (rel (50 * u) true).
Lemma srk_parts : exists bf qf, let b := 0.08664 * (pr / t) in let q := 0.42748 * y ^ 2 / (0.08664 * t) in
  0 < t /\ 0 < pr / t /\
  (exists kb nA kA, (1 <= kb <= 5 + 4 * K)%Z /\ (nA <= 14)%nat /\ (0 <= kA <= 15 + 8 * K)%Z /\ rel b bf (Some (5%nat, kb)) /\ rel (q * b) (SFmul 53 1024 qf bf) (Some (nA, kA))) /\
  (forall z, cubic b q z <-> compressibility (soave_law (SFR w)) (SFR T) (SFR P) (SFR Tc) (SFR Pc) z) /\
  forall tn pn st n, @soave_rendlich_kwong spec_float B (temp64 tn T) (pres64 pn P) (temp64 tn Tc) (pres64 pn Pc) st (VNum w) n =
    @solve_state spec_float B st (@vapor_rhs _ B (VNum bf) (VNum qf)) (@vapor_rhs _ B (VNum bf) (VNum qf)) (@liquid_rhs _ B (VNum bf) (VNum qf)) (@liquid_rhs _ B (VNum bf) (VNum qf)) (VNum bf) n.
Proof.
  pose proof (pos_of _ _ oT) as qT. pose proof (pos_of _ _ oP) as qP. pose proof (pos_of _ _ oTc) as qTc. pose proof (pos_of _ _ oPc) as qPc.
  assert (hK0 : (0 <= K <= 100)%Z) by lia. pose proof (rel_t u allowed p hu40 T Tc K hK0 oT oTc) as rt.
  destruct (rel_nz u hu40 _ _ _ rt) as (ft & nt & ht). fold t in rt, ht. fold tf in rt, ft, nt. assert (hpr : 0 < pr) by (apply Rdiv_lt_0_compat; assumption).
  destruct (alpha64 u allowed p hu40 hp hh h2 (480 # 1000) (1574 # 1000) (176 # 1000) _ _ t tf w ltac:(split; [vm_compute; discriminate|reflexivity]) ltac:(split; [vm_compute; discriminate|reflexivity]) ltac:(split; [vm_compute; discriminate|reflexivity])
    ltac:(unfold Q2R; cbn [Qnum Qden]; lra) ltac:(unfold Q2R; cbn [Qnum Qden]; lra) ltac:(unfold Q2R; cbn [Qnum Qden]; lra) rt ltac:(lia) ltac:(lia) ht4 fw sw hw) as (hy' & af & ea & fa & na).
  { replace (Q2R (480 # 1000)) with 0.480 by q2r. replace (Q2R (1574 # 1000)) with 1.574 by q2r. replace (Q2R (176 # 1000)) with 0.176 by q2r. exact hy. }
  replace (Q2R (480 # 1000)) with 0.480 in hy', na by q2r. replace (Q2R (1574 # 1000)) with 1.574 in hy', na by q2r. replace (Q2R (176 # 1000)) with 0.176 in hy', na by q2r.
  fold y in hy', na. assert (hy2 : 1 / 4 <= y ^ 2 <= 12) by (clearbody y; nra).
  pose proof (err_rel (y ^ 2) af 4 ltac:(lra) fa na (mid_sized _ hy2) ltac:(lia)) as ra.
  destruct (parts (50 * u) allowed p hu50 T P Tc Pc K hK0 oT oP oTc oPc (8664 # 100000) (42748 # 100000) 4 2 4 2 (y ^ 2) af ltac:(reflexivity) ltac:(reflexivity) ltac:(reflexivity) ltac:(reflexivity) ltac:(lia) ltac:(lia) ra ltac:(lia) ltac:(lia)) as (fl & nl & hr).
  replace (Q2R (8664 # 100000)) with 0.08664 in hr by q2r. replace (Q2R (42748 # 100000)) with 0.42748 in hr by q2r.
  eexists _, _. split; [exact ht|]. split; [apply Rdiv_lt_0_compat; assumption|]. split; [exact hr|].
  split; [intro z; apply srk_root; try assumption; change ((1 + (0.480 + 1.574 * SFR w - 0.176 * SFR w ^ 2) * (1 - sqrt (SFR T / SFR Tc))) ^ 2) with (y ^ 2); lra|]. intros tn pn st n. apply srk_float_call; assumption.
Qed.
Theorem srk_float tn pn : let k := 0.42748 * y ^ 2 * pr / t ^ 2 in 0.08664 * pr <= 1 / 2 * t -> k <= 1 / 5 ->
  finds_greatest64 (soave_law (SFR w)) T P Tc Pc (@soave_rendlich_kwong spec_float B (temp64 tn T) (pres64 pn P) (temp64 tn Tc) (pres64 pn Pc) "vapor" (VNum w))
    (fun n => (4 * k) ^ S n / 2 + 150 * (50 * u)).
Proof.
  intros k h1 h3. destruct srk_parts as (bf & qf & ht & hpt & (kb & nA & kA & _ & hn & _ & rb & rA) & hl & hc).
  assert (hy2 : 0 < y ^ 2) by (apply pow_lt; lra). set (Y := y ^ 2) in *. clearbody Y.
  set (b := 0.08664 * (pr / t)) in *. set (q := 0.42748 * Y / (0.08664 * t)) in *.
  assert (ek : q * b = k) by (unfold q, b, k; field; lra).
  assert (hb : 0 < b <= 1 / 2).
  { unfold b. split; [lra|]. apply (Rmult_le_reg_r t); [exact ht|]. replace (0.08664 * (pr / t) * t) with (0.08664 * pr) by (field; lra). exact h1. }
  assert (hk : 0 < q * b <= 1 / 5).
  { rewrite ek. split; [|exact h3]. rewrite <- ek. apply Rmult_lt_0_compat; [|lra]. unfold q. apply Rdiv_lt_0_compat; lra. }
  rewrite <- ek. exact (vapor_found _ p hu50 T P Tc Pc _ _ b q bf qf kb nA kA _ _ hb hk rb rA hn hl (fun n => hc tn pn "vapor" n)).
Qed.
Hypothesis hK2 : (K <= 50)%Z.
Theorem srk_float_liquid tn pn : let q := 0.42748 * y ^ 2 / (0.08664 * t) in let b := 0.08664 * (pr / t) in 6 <= q -> b <= 8 / 11 ->
  finds_least64 (soave_law (SFR w)) T P Tc Pc (@soave_rendlich_kwong spec_float B (temp64 tn T) (pres64 pn P) (temp64 tn Tc) (pres64 pn Pc) "liquid" (VNum w)) b
    (fun n => (5.01 / q) ^ S n * b + 900 * (50 * u) * b).
Proof.
  intros q b h1 h3. destruct srk_parts as (bf & qf & ht & hpt & (kb & nA & kA & h4 & hn & h5 & rb & rA) & hl & hc).
  assert (hb : 0 < b <= 8 / 11) by (split; [unfold b; lra|exact h3]).
  exact (liquid_found _ allowed p hu50 T P Tc Pc _ _ b q bf qf kb nA kA _ _ hb h1 ltac:(lia) ltac:(lia) rb rA hn hl (fun n => hc tn pn "liquid" n)).
Qed.
End Calls.
Section Final.
Variables (u : R) (allowed : Qc -> bool) (p : spec_float -> Qc -> res spec_float).
Hypothesis hu : / 2 ^ 53 <= u <= / 2 ^ 46.
Hypothesis hp : pow_good u allowed p.
Hypothesis hh : allowed (ev e_half) = true.
Hypothesis h2 : allowed (ev (eint 2)) = true.
Notation B := (Bpow p).
Theorem srk_float64 tn pn T P Tc Pc w : ordinary 100 T -> ordinary 100 P -> ordinary 100 Tc -> ordinary 100 Pc -> finite64 w -> sized 100 (SFR w) -> Rabs (SFR w) <= 1 ->
  let t := SFR T / SFR Tc in let r := SFR P / SFR Pc in let y := 1 + (0.480 + 1.574 * SFR w - 0.176 * SFR w ^ 2) * (1 - sqrt t) in let k := 0.42748 * y ^ 2 * r / t ^ 2 in
  t <= 4 -> 1 / 2 <= y -> 0.08664 * r <= 1 / 2 * t -> k <= 1 / 5 ->
  finds_greatest64 (soave_law (SFR w)) T P Tc Pc (@soave_rendlich_kwong spec_float B (temp64 tn T) (pres64 pn P) (temp64 tn Tc) (pres64 pn Pc) "vapor" (VNum w)) (fun n => (4 * k) ^ S n / 2 + 7500 * u).
Proof.
  intros oT oP oTc oPc fw sw hw t r y k h4 hy h1 h3. destruct (srk_float u allowed p hu hp hh h2 T P Tc Pc w 100 ltac:(lia) oT oP oTc oPc fw sw hw h4 hy tn pn h1 h3) as (z & a & b & c & d).
  exists z. split; [exact a|]. split; [exact b|]. split; [exact c|]. intros n hn. destruct (d n hn) as (x & e1 & e2 & e3). exists x. split; [exact e1|]. split; [exact e2|]. apply Rle_trans with (1 := e3). right. unfold k, y, r, t. ring.
Qed.
Theorem srk_liquid64 tn pn T P Tc Pc w : ordinary 50 T -> ordinary 50 P -> ordinary 50 Tc -> ordinary 50 Pc -> finite64 w -> sized 100 (SFR w) -> Rabs (SFR w) <= 1 ->
  let t := SFR T / SFR Tc in let r := SFR P / SFR Pc in let y := 1 + (0.480 + 1.574 * SFR w - 0.176 * SFR w ^ 2) * (1 - sqrt t) in
  let q := 0.42748 * y ^ 2 / (0.08664 * t) in let b := 0.08664 * (r / t) in
  t <= 4 -> 1 / 2 <= y -> 6 <= q -> b <= 8 / 11 ->
  finds_least64 (soave_law (SFR w)) T P Tc Pc (@soave_rendlich_kwong spec_float B (temp64 tn T) (pres64 pn P) (temp64 tn Tc) (pres64 pn Pc) "liquid" (VNum w)) b (fun n => (5.01 / q) ^ S n * b + 45000 * u * b).
Proof.
  intros oT oP oTc oPc fw sw hw t r y q b h4 hy h1 h3. destruct (srk_float_liquid u allowed p hu hp hh h2 T P Tc Pc w 50 ltac:(lia) oT oP oTc oPc fw sw hw h4 hy ltac:(lia) tn pn h1 h3) as (z & a & b' & c & d).
  exists z. split; [exact a|]. split; [exact b'|]. split; [exact c|]. intros n hn. destruct (d n hn) as (x & e1 & e2 & e3). exists x. split; [exact e1|]. split; [exact e2|]. apply Rle_trans with (1 := e3). right. fold t r y q b. ring.
Qed.
End Final.
