(** * EosFloatPeng: Peng and Robinson's liquid calls in binary64 *)
From Coq Require Import String List ZArith QArith Qcanon Bool Reals Qreals Lra Lia.
From Coq Require Import Floats.SpecFloat.
From Verif Require Import Py Num NumFacts UnitsData UnitsStruct Units Expr Rounding RoundSpec RoundFacts RoundErr RoundCases Range RangeSpec FloatExp FloatRound B64Facts RangeFacts B64Spec B64Full WaterFloatFacts Eos EosSpec EosFacts EosFoundSpec EosLiquid EosFloatSpec EosFloat EosFloatLiquid EosFloatCalls EosFloatAlpha EosFloatSoave.
Local Open Scope string_scope.
Local Open Scope R_scope.
Local Notation p2 := (powerRZ 2).

Lemma sqrt2_range : 1.414 <= sqrt 2 <= 1.4143.
Proof. split; [rewrite <- (sqrt_square 1.414) by lra|rewrite <- (sqrt_square 1.4143) by lra]; apply sqrt_le_1_alt; lra. Qed.

(** ** The first step *)
Section First.
Variables (u : R) (allowed : Qc -> bool) (p : spec_float -> Qc -> res spec_float).
Hypothesis hu : / 2 ^ 53 <= u <= / 2 ^ 40.
Notation B := (Bpow p).
Notation rel := (rel u true).
Let us := u_small u hu.
Variables (b q : R) (bf qf sg ep : spec_float) (kb kA : Z).
Hypothesis hb : 0 < b <= 8 / 11.
Hypothesis hq : 6 <= q.
Hypothesis hkb : (1 <= kb <= 210)%Z.
Hypothesis hkA : (0 <= kA <= 420)%Z.
Hypothesis rb : rel b bf (Some (5%nat, kb)).
Variable nA : nat.
Hypothesis hnA : (nA <= 14)%nat.
Hypothesis rA : rel (q * b) (SFmul 53 1024 qf bf) (Some (nA, kA)).
Hypothesis fs : finite64 sg.
Hypothesis fe : finite64 ep.
Hypothesis ns : Rabs (SFR sg - (1 + sqrt 2)) <= 4 * u.
Hypothesis ne : Rabs (SFR ep - (1 - sqrt 2)) <= 4 * u.
Lemma tiny_b : p2 (-1075) <= u * b / 1000.
Proof.
  destruct rb as (_ & _ & sb & _ & _ & _). destruct sb as [sb|[sb _]]; [lra|]. rewrite (Rabs_pos_eq b) in sb by lra.
  assert (h1 : p2 (-210) <= b) by (apply Rle_trans with (2 := sb); apply p2_le; lia). change (/ 2 ^ 53) with (p2 (-53)) in hu. pose proof (p2_gt (-210)). pose proof (p2_gt (-53)).
  apply Rle_trans with (p2 (-53) * p2 (-210) * p2 (-10)).
  - rewrite <- !p2_add. apply p2_le. lia.
  - assert (h2 : p2 (-53) * p2 (-210) <= u * b) by (apply Rmult_le_compat; lra). assert (h3 : p2 (-10) <= / 1000) by (change (p2 (-10)) with (/ 2 ^ 10); apply Rinv_le_contravar; lra).
    pose proof (p2_gt (-10)). unfold Rdiv. apply Rmult_le_compat; try lra. apply Rmult_le_pos; lra.
Qed.
Lemma sg_rel : rel (1 + sqrt 2) sg (Some (3%nat, 2%Z)).
Proof.
  pose proof sqrt2_range. unfold RangeFacts.rel. split; [exact fs|]. split; [|split; [|split; [lia|split; [lia|intros _; lra]]]].
  - apply (err_within u hu); [lia|lra|]. apply Rle_trans with (1 := ns). replace (INR 2) with 2 by (cbn; lra). nra.
  - right. rewrite Rabs_pos_eq by lra. pose proof (eq_refl : p2 (- (2)) = / (2 * (2 * 1))) as e1. pose proof (eq_refl : p2 2 = 2 * (2 * 1)) as e2. lra.
Qed.
(** beta + epsilon * beta, which subtracts. *)
Lemma low_factor : rel (b + (1 - sqrt 2) * b) (SFadd 53 1024 bf (SFmul 53 1024 ep bf)) (Some (22%nat, (kb + 1)%Z)).
Proof.
  pose proof sqrt2_range as h2. destruct (rel_err u hu _ _ _ _ rb ltac:(lia)) as [fb eb]. replace (INR 5) with 5 in eb by (cbn; lra). pose proof us as us'. pose proof tiny_b as ht.
  assert (hub : 0 < u * b) by nra. assert (hus : u * (u * b) <= u * b / 1000000) by nra. pose proof (abs_le _ _ eb) as eb'. pose proof (abs_le _ _ ne) as ne'.
  assert (e1 : Rabs (SFR ep * SFR bf - (1 - sqrt 2) * b) <= 6.2 * (u * b)).
  { pose proof (err_mul (1 - sqrt 2) b (SFR ep) (SFR bf) _ _ ne eb (1.001 * b) 0.4143 ltac:(apply Rabs_le; nra) ltac:(apply Rabs_le; lra)) as h. nra. }
  pose proof (abs_le _ _ e1) as e1'. assert (z1 : Rabs (SFR ep * SFR bf) <= 0.42 * b) by (apply Rabs_le; nra).
  destruct (rounds u hu _ _ 1 (mul_full ep bf fe fb) ltac:(lra) ltac:(lra)) as [f1 r1]. set (s1 := SFmul 53 1024 ep bf) in *.
  assert (e2 : Rabs (SFR s1 - SFR ep * SFR bf) <= 0.43 * (u * b)). { apply Rle_trans with (1 := r1). assert (u * Rabs (SFR ep * SFR bf) <= u * (0.42 * b)) by (apply Rmult_le_compat_l; lra). lra. }
  pose proof (abs_le _ _ e2) as e2'. assert (z2 : Rabs (SFR bf + SFR s1) <= 0.6 * b) by (apply Rabs_le; nra).
  destruct (rounds u hu _ _ 1 (add_full bf s1 fb f1) ltac:(lra) ltac:(lra)) as [f2 r2]. set (s2 := SFadd 53 1024 bf s1) in *.
  assert (e3 : Rabs (SFR s2 - (SFR bf + SFR s1)) <= 0.61 * (u * b)). { apply Rle_trans with (1 := r2). assert (u * Rabs (SFR bf + SFR s1) <= u * (0.6 * b)) by (apply Rmult_le_compat_l; lra). lra. }
  pose proof (abs_le _ _ e3) as e3'. assert (hx : 0.585 * b <= b + (1 - sqrt 2) * b <= 0.587 * b) by nra.
  unfold RangeFacts.rel. split; [exact f2|]. split; [|split; [|split; [lia|split; [lia|intros _; lra]]]].
  - apply (err_within u hu); [lia|lra|]. replace (INR 21) with 21 by (rewrite INR_IZR_INZ; reflexivity). apply Rle_trans with (12.28 * (u * b)); [apply Rabs_le; lra|].
    assert (u * (0.585 * b) <= u * (b + (1 - sqrt 2) * b)) by (apply Rmult_le_compat_l; lra). lra.
  - right. rewrite Rabs_pos_eq by lra. destruct rb as (_ & _ & sb & _ & _ & _). destruct sb as [sb|sb]; [lra|]. rewrite (Rabs_pos_eq b) in sb by lra. split.
    + apply Rle_trans with (p2 (-1) * p2 (- kb)); [rewrite <- p2_add; apply p2_le; lia|]. change (p2 (-1)) with (/ (2 * 1)). lra.
    + apply Rle_trans with (p2 kb); [lra|apply p2_le; lia].
Qed.
Lemma first_step : exists y, @pr_rhs spec_float B (VNum sg) (VNum ep) (VNum bf) (VNum qf) (VNum bf) = Ok (VNum y) /\ finite64 y /\ wide b (SFR y) /\ Rabs (SFR y - gl b q b) <= 141 * u * b.
Proof.
  pose proof rA as rA'. set (A := SFmul 53 1024 qf bf) in *. pose proof (qb_pos b q hb hq) as hp. pose proof us as us'.
  assert (hw : wide b b) by (unfold wide; lra). pose proof (wide_in b q hb hq b hw) as hin.
  pose proof low_factor as r2. set (s1 := SFmul 53 1024 ep bf) in *. set (s2 := SFadd 53 1024 bf s1) in *.
  pose proof (r_mul u allowed p hu true _ _ _ _ _ _ sg_rel rb) as r3. cbn [nmul Rnum Bpow Snum s_prod] in r3. rewrite guard_ok in r3 by lia. set (s3 := SFmul 53 1024 sg bf) in *.
  pose proof (r_add u allowed p hu _ _ _ _ _ _ rb r3) as r4. cbn [nadd Rnum Bpow Snum] in r4. rewrite guard_ok in r4 by lia. set (s4 := SFadd 53 1024 bf s3) in *.
  pose proof (r_mul u allowed p hu true _ _ _ _ _ _ r2 r4) as r5. cbn [nmul Rnum Bpow Snum s_prod] in r5. rewrite guard_ok in r5 by lia. set (s5 := SFmul 53 1024 s2 s4) in *.
  (* 1 + b - b *)
  pose proof (r_add u allowed p hu _ _ _ _ _ _ (rel_one u allowed p hu) rb) as r6. cbn [nadd Rnum Bpow Snum] in r6. rewrite guard_ok in r6 by lia. set (s6 := SFadd 53 1024 (f_lit 1) bf) in *.
  destruct (rel_err u hu _ _ _ _ r6 ltac:(lia)) as [f6 e6]. destruct (rel_err u hu _ _ _ _ rb ltac:(lia)) as [fb eb]. replace (INR 5) with 5 in eb by (cbn; lra).
  assert (e6' : Rabs (SFR s6 - (1 + b)) <= 10.5 * u). { apply Rle_trans with (1 := e6). replace (INR (S (Nat.max 0 5))) with 6 by (cbn; lra). nra. }
  assert (eb2 : Rabs (SFR bf - b) <= 3.7 * u). { apply Rle_trans with (1 := eb). nra. }
  pose proof (abs_le _ _ e6') as e6''. pose proof (abs_le _ _ eb2) as eb'.
  destruct (rounds u hu _ _ 1.2 (sub_full s6 bf f6 fb) ltac:(apply Rabs_le; lra) ltac:(lra)) as [f7 rd7]. set (s7 := SFsub 53 1024 s6 bf) in *.
  pose proof (rd_bound u _ us (tiny u (proj1 hu)) _ _ 1.2 rd7 ltac:(apply Rabs_le; lra)) as e7. pose proof (abs_le _ _ e7) as e7'.
  assert (r7 : rel 1 s7 (Some (17%nat, 1%Z))).
  { unfold RangeFacts.rel. split; [exact f7|]. split; [|split; [|split; [lia|split; [lia|intros _; lra]]]].
    - apply (err_within u hu); [lia|lra|]. replace (INR 16) with 16 by (rewrite INR_IZR_INZ; reflexivity). apply Rabs_le. lra.
    - right. rewrite Rabs_pos_eq by lra. pose proof (eq_refl : p2 (- (1)) = / (2 * 1)) as e1. pose proof (eq_refl : p2 1 = 2 * 1) as e2. lra. }
  pose proof (r_ndiv u allowed p hu true _ _ _ _ _ _ (Rgt_not_eq _ _ hp) r7 rA') as r8. cbn [ndiv Rnum Bpow Snum s_prod] in r8. rewrite guard_ok in r8 by lia. set (s8 := SFdiv 53 1024 s7 A) in *.
  pose proof (r_mul u allowed p hu true _ _ _ _ _ _ r5 r8) as r9. cbn [nmul Rnum Bpow Snum s_prod] in r9. rewrite guard_ok in r9 by lia. set (s9 := SFmul 53 1024 s5 s8) in *.
  pose proof (r_add u allowed p hu _ _ _ _ _ _ rb r9) as r10. cbn [nadd Rnum Bpow Snum] in r10. rewrite guard_ok in r10 by lia.
  assert (eg : b + (b + (1 - sqrt 2) * b) * (b + (1 + sqrt 2) * b) * (1 / (q * b)) = gl b q b).
  { unfold gl. pose proof (sqrt_sqrt 2 ltac:(lra)) as e. replace ((b + (1 - sqrt 2) * b) * (b + (1 + sqrt 2) * b)) with (b * (b + b)); [|transitivity (b * b * (4 - sqrt 2 * sqrt 2)); [rewrite e; ring|ring]]. replace (1 + b - b) with 1 by ring. reflexivity. }
  rewrite eg in r10. destruct (rel_err u hu _ _ _ _ r10 ltac:(lia)) as [f10 e10]. set (s10 := SFadd 53 1024 bf s9) in *.
  assert (e10' : Rabs (SFR s10 - gl b q b) <= 141 * u * b).
  { apply Rle_trans with (1 := e10). apply Rle_trans with (70.01 * u * (2 * b + 0.0009 * b)); [|nra].
    apply Rmult_le_compat; [|lra| |lra]; [apply Rmult_le_pos; [match goal with |- 0 <= INR ?k + _ => pose proof (pos_INR k) end; lra|lra]|].
    apply Rmult_le_compat_r; [lra|]. replace 70.01 with (INR 70 + 0.01) by (rewrite INR_IZR_INZ; cbn; lra). apply Rplus_le_compat_r, le_INR. lia. }
  destruct (rel_nz u hu _ _ _ rA') as (fA & zA & _). exists s10. split; [|split; [exact f10|split; [|exact e10']]].
  - unfold pr_rhs, lift2, num. cbn [bind nq Bpow]. rewrite !b_add, !b_mul. cbn [bind]. rewrite b_add. fold s1 s3 s6. cbn [bind]. rewrite b_add. cbn [bind]. fold s2 s4. rewrite b_mul. cbn [bind]. fold s5. rewrite b_sub. cbn [bind]. fold A s7. rewrite b_div by assumption. cbn [bind]. rewrite b_mul. cbn [bind]. apply b_add.
  - pose proof (abs_le _ _ e10') as h. assert (141 * u * b <= 0.00001 * b) by nra. unfold wide. lra.
Qed.
Lemma peng_liquid fv v z n : cubic b q z -> b <= z <= 2 * b ->
  exists x, @solve_state spec_float B "liquid" fv v (@pr_rhs spec_float B (VNum sg) (VNum ep) (VNum bf) (VNum qf)) (@liquid_rhs spec_float B (VNum bf) (VNum qf)) (VNum bf) n = Ok (VNum x) /\
    finite64 x /\ Rabs (SFR x - z) <= (5.01 / q) ^ (S (Z.to_nat n)) * b + 900 * u * b.
Proof.
  intros hc hz. unfold solve_state. replace (String.eqb "liquid" "vapor") with false by reflexivity. replace (String.eqb "liquid" "liquid") with true by reflexivity.
  destruct first_step as (y & e1 & fy & hy & ey). rewrite e1. cbn [bind]. assert (hub : 0 < u * b) by (pose proof us; nra).
  destruct (liquid_loop u allowed p hu b q bf qf kb kA hb hq hkb hkA rb nA hnA rA z hc hz (Z.to_nat n) y (5.01 / q * b) fy hy) as (x & ex & fx & hx).
  - pose proof (wide_lip b q hb hq b z ltac:(unfold wide; lra) hz) as hl. rewrite (liquid_fix b q hb hq z hc) in hl. pose proof (wide_rate b q hb hq) as hr.
    assert (hbz : Rabs (b - z) <= b) by (apply Rabs_le; lra). assert (5.01 / q * Rabs (b - z) <= 5.01 / q * b) by (apply Rmult_le_compat_l; lra).
    apply abs_le in ey. apply abs_le in hl. apply Rabs_le. lra.
  - exists x. split; [exact ex|]. split; [exact fx|]. apply Rle_trans with (1 := hx). right. cbn [pow]. ring.
Qed.
End First.

Section Calls.
Variables (u : R) (allowed : Qc -> bool) (p : spec_float -> Qc -> res spec_float).
Hypothesis hu : / 2 ^ 53 <= u <= / 2 ^ 46.
Hypothesis hp : pow_good u allowed p.
Hypothesis hh : allowed (ev e_half) = true.
Hypothesis h2 : allowed (ev (eint 2)) = true.
Notation B := (Bpow p).
Let hu4 := hu40 u hu.
Let us := u_small u hu4.
Lemma sigmas : exists r, p (f_lit 2) (ev e_half) = Ok r /\ let sg := SFadd 53 1024 (f_lit 1) r in let ep := SFsub 53 1024 (f_lit 1) r in
  finite64 sg /\ finite64 ep /\ Rabs (SFR sg - (1 + sqrt 2)) <= 4 * (50 * u) /\ Rabs (SFR ep - (1 - sqrt 2)) <= 4 * (50 * u).
Proof.
  pose proof us as us'. pose proof sqrt2_range as h. destruct b_one as [fo eo].
  pose proof (r_lit u allowed p hu4 true 2 ltac:(intro; reflexivity)) as rl. cbn [nq Rnum Bpow] in rl. replace (Q2R 2) with 2 in rl by q2r.
  change (@nq size (Snum allowed) 2) with (Some (0%nat, 2%Z)) in rl.
  destruct (root u allowed p hu4 hp hh _ _ _ _ rl ltac:(lia) ltac:(lia)) as (r & er & fr & nr). exists r. split; [exact er|]. cbv zeta.
  assert (e1 : Rabs (SFR r - sqrt 2) <= 3 * u) by (apply Rle_trans with (1 := nr); nra). pose proof (abs_le _ _ e1) as e1'.
  pose proof (add_full _ _ fo fr) as o1. rewrite eo in o1. pose proof (sub_full _ _ fo fr) as o2. rewrite eo in o2.
  destruct (rounds u hu4 _ _ 3 o1 ltac:(apply Rabs_le; lra) ltac:(lra)) as [f1 r1]. destruct (rounds u hu4 _ _ 3 o2 ltac:(apply Rabs_le; lra) ltac:(lra)) as [f2 r2].
  pose proof (abs_le _ _ (rd_bound u _ us (tiny u (proj1 hu)) _ _ 3 r1 ltac:(apply Rabs_le; lra))). pose proof (abs_le _ _ (rd_bound u _ us (tiny u (proj1 hu)) _ _ 3 r2 ltac:(apply Rabs_le; lra))).
  split; [exact f1|]. split; [exact f2|]. split; apply Rabs_le; lra.
Qed.
Variables (T P Tc Pc w : spec_float) (K : Z).
Hypothesis hK : (2 <= K <= 50)%Z.
Hypothesis oT : ordinary K T.
Hypothesis oP : ordinary K P.
Hypothesis oTc : ordinary K Tc.
Hypothesis oPc : ordinary K Pc.
Hypothesis fw : finite64 w.
Hypothesis sw : sized 100 (SFR w).
Hypothesis hw : Rabs (SFR w) <= 1.
Let t := SFR T / SFR Tc.
Let pr := SFR P / SFR Pc.
Let tf := SFdiv 53 1024 T Tc.
Let pf := SFdiv 53 1024 P Pc.
Hypothesis ht4 : t <= 4.
Let y := 1 + (0.37464 + 1.54226 * SFR w - 0.26992 * SFR w ^ 2) * (1 - sqrt t).
Hypothesis hy : 1 / 2 <= y.
Lemma pr_float_call tn pn st n af r : @soave_alpha spec_float B (37464 # 100000) (154226 # 100000) (26992 # 100000) (VNum w) (VNum tf) = Ok (VNum af) -> finite64 tf -> SFR tf <> 0 -> p (f_lit 2) (ev e_half) = Ok r ->
  let bf := SFmul 53 1024 (f_lit (7780 # 100000)) (SFdiv 53 1024 pf tf) in
  let lf := SFmul 53 1024 (f_lit (7780 # 100000)) tf in
  let qf := SFdiv 53 1024 (SFmul 53 1024 (f_lit (45724 # 100000)) af) lf in
  let sg := SFadd 53 1024 (f_lit 1) r in let ep := SFsub 53 1024 (f_lit 1) r in
  finite64 lf -> SFR lf <> 0 ->
  @peng_robinson spec_float B (temp64 tn T) (pres64 pn P) (temp64 tn Tc) (pres64 pn Pc) st (VNum w) n =
  @solve_state spec_float B st (@pr_rhs _ B (VNum sg) (VNum ep) (VNum bf) (VNum qf)) (@vapor_rhs _ B (VNum bf) (VNum qf)) (@pr_rhs _ B (VNum sg) (VNum ep) (VNum bf) (VNum qf)) (@liquid_rhs _ B (VNum bf) (VNum qf)) (VNum bf) n.
Proof.
  intros ea ft nt er bf lf qf sg ep fl nl. destruct oTc as [f1 _]. destruct oPc as [f2 _]. pose proof (pos_of _ _ oTc) as h1. pose proof (pos_of _ _ oPc) as h3.
  unfold peng_robinson, temp64, pres64. unfold lift2 at 1. cbn [bind]. rewrite b_same by (try assumption; lra). cbn [bind]. unfold lift2 at 1. cbn [bind]. rewrite b_same by (try assumption; lra). cbn [bind].
  fold tf pf. unfold lift2 at 1, num at 1 2. cbn [bind]. unfold py_pow at 1. cbn [npow Bpow nq]. rewrite er. unfold rmap at 1. cbn [bind]. rewrite b_add. cbn [bind]. fold sg.
  unfold lift2 at 1, num at 1 2. cbn [bind]. unfold py_pow at 1. cbn [npow Bpow nq]. rewrite er. unfold rmap at 1. cbn [bind]. rewrite b_sub. cbn [bind]. fold ep.
  rewrite ea. cbn [bind]. unfold lift2 at 1 2, num at 1. cbn [bind]. rewrite b_div by assumption. cbn [bind]. rewrite b_mul. cbn [bind].
  unfold lift2 at 1 2 3, num at 1 2. cbn [bind nq Bpow]. rewrite !b_mul. cbn [bind]. fold lf. rewrite b_div by assumption. cbn [bind]. reflexivity.
Qed.
Theorem pr_float_liquid tn pn : let q := 0.45724 * y ^ 2 / (0.07780 * t) in let b := 0.07780 * (pr / t) in 6 <= q -> b <= 8 / 11 ->
  finds_least64 (kwong_form 0.07780 (0.45724 * y ^ 2)) T P Tc Pc (@peng_robinson spec_float B (temp64 tn T) (pres64 pn P) (temp64 tn Tc) (pres64 pn Pc) "liquid" (VNum w)) b
    (fun n => (5.01 / q) ^ S n * b + 45000 * u * b).
Proof.
  intros q b h6 h8.
  pose proof (pos_of _ _ oT) as qT. pose proof (pos_of _ _ oP) as qP. pose proof (pos_of _ _ oTc) as qTc. pose proof (pos_of _ _ oPc) as qPc.
  assert (hK0 : (0 <= K <= 100)%Z) by lia. pose proof (rel_t u allowed p hu4 T Tc K hK0 oT oTc) as rt.
  destruct (rel_nz u hu4 _ _ _ rt) as (ft & nt & ht). fold t in rt, ht. fold tf in rt, ft, nt. assert (hpr : 0 < pr) by (apply Rdiv_lt_0_compat; assumption).
  destruct (alpha64 u allowed p hu4 hp hh h2 (37464 # 100000) (154226 # 100000) (26992 # 100000) _ _ t tf w ltac:(split; [vm_compute; discriminate|reflexivity]) ltac:(split; [vm_compute; discriminate|reflexivity]) ltac:(split; [vm_compute; discriminate|reflexivity])
    ltac:(unfold Q2R; cbn [Qnum Qden]; lra) ltac:(unfold Q2R; cbn [Qnum Qden]; lra) ltac:(unfold Q2R; cbn [Qnum Qden]; lra) rt ltac:(lia) ltac:(lia) ht4 fw sw hw) as (hy' & af & ea & fa & na).
  { replace (Q2R (37464 # 100000)) with 0.37464 by q2r. replace (Q2R (154226 # 100000)) with 1.54226 by q2r. replace (Q2R (26992 # 100000)) with 0.26992 by q2r. exact hy. }
  replace (Q2R (37464 # 100000)) with 0.37464 in hy', na by q2r. replace (Q2R (154226 # 100000)) with 1.54226 in hy', na by q2r. replace (Q2R (26992 # 100000)) with 0.26992 in hy', na by q2r.
  fold y in hy', na. assert (hy2 : 1 / 4 <= y ^ 2 <= 12) by (clearbody y; nra).
  pose proof (err_rel u hu (y ^ 2) af 4 ltac:(lra) fa na (mid_sized _ hy2) ltac:(lia)) as ra.
  destruct (parts (50 * u) allowed p (hu50 u hu) T P Tc Pc K hK0 oT oP oTc oPc (7780 # 100000) (45724 # 100000) 5 2 4 2 (y ^ 2) af ltac:(reflexivity) ltac:(reflexivity) ltac:(reflexivity) ltac:(reflexivity) ltac:(lia) ltac:(lia) ra ltac:(lia) ltac:(lia)) as (fl & nl & hr).
  replace (Q2R (7780 # 100000)) with 0.07780 in hr by q2r. replace (Q2R (45724 # 100000)) with 0.45724 in hr by q2r.
  destruct hr as (kb & nA & kA & h3 & hn & h4 & rb & rA). destruct sigmas as (r & er & fs & fe & ns & ne).
  assert (hb : 0 < b <= 8 / 11) by (split; [unfold b; apply Rmult_lt_0_compat; [lra|apply Rdiv_lt_0_compat; assumption]|exact h8]).
  assert (law : forall z, cubic b q z <-> compressibility (kwong_form 0.07780 (0.45724 * y ^ 2)) (SFR T) (SFR P) (SFR Tc) (SFR Pc) z).
  { intro z. apply form_iff; try assumption; nra. }
  destruct (liquid_exists b q hb h6) as (z & hz & hz2). exists z. split; [exact hz|]. split; [apply law; assumption|]. split.
  - intros z' h' pz. apply law in h'. exact (liquid_least b q hb h6 z z' ltac:(lra) hz2 h' pz).
  - intros n h0. rewrite (pr_float_call tn pn "liquid" n af r ea ft nt er fl nl).
    match goal with |- context [solve_state "liquid" ?fv ?v _ _ _ _] =>
      destruct (peng_liquid (50 * u) allowed p (hu50 u hu) b q _ _ _ _ kb kA hb h6 ltac:(lia) ltac:(lia) rb nA hn rA fs fe ns ne fv v z n hz2 ltac:(lra)) as (x & e1 & e2 & e3) end.
    exists x. split; [exact e1|]. split; [exact e2|]. apply Rle_trans with (1 := e3). right. ring.
Qed.
End Calls.
Theorem pr_liquid64 u allowed p : / 2 ^ 53 <= u <= / 2 ^ 46 -> pow_good u allowed p -> allowed (ev e_half) = true -> allowed (ev (eint 2)) = true ->
  forall tn pn T P Tc Pc w, ordinary 50 T -> ordinary 50 P -> ordinary 50 Tc -> ordinary 50 Pc -> finite64 w -> sized 100 (SFR w) -> Rabs (SFR w) <= 1 ->
  let t := SFR T / SFR Tc in let r := SFR P / SFR Pc in let y := 1 + (0.37464 + 1.54226 * SFR w - 0.26992 * SFR w ^ 2) * (1 - sqrt t) in
  let q := 0.45724 * y ^ 2 / (0.07780 * t) in let b := 0.07780 * (r / t) in
  t <= 4 -> 1 / 2 <= y -> 6 <= q -> b <= 8 / 11 ->
  finds_least64 (kwong_form 0.07780 (0.45724 * y ^ 2)) T P Tc Pc (@peng_robinson spec_float (Bpow p) (temp64 tn T) (pres64 pn P) (temp64 tn Tc) (pres64 pn Pc) "liquid" (VNum w)) b (fun n => (5.01 / q) ^ S n * b + 45000 * u * b).
Proof. intros hu hp hh h2 tn pn T P Tc Pc w oT oP oTc oPc fw sw hw t r y q b h4 hy h1 h3. exact (pr_float_liquid u allowed p hu hp hh h2 T P Tc Pc w 50 ltac:(lia) oT oP oTc oPc fw sw hw h4 hy tn pn h1 h3). Qed.
