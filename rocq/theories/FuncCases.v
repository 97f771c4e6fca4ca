(** * FuncCases: functions rounded to 53 bits, and cases *)
From Coq Require Import Ascii String List ZArith QArith Qcanon Bool Reals Qreals Lia Lra.
From Verif Require Import Py Num NumFacts UnitsData UnitsStruct Units Expr Solve Formulas Rounding RoundSpec RoundFacts RoundErr RoundCases SumSpec SumErr Func FuncSpec FuncErr FuncFacts FuncBounds FuncDecay FuncMean.
Import ListNotations.
Local Open Scope string_scope.
Local Open Scope list_scope.
Local Open Scope R_scope.

(** The sine stands in for erf, which the model leaves open. *)
Definition funs53 : funs :=
  {| m_pi := round53 PI; m_exp := fun x => round53 (exp x); m_log := fun x => round53 (ln x); m_sin := fun x => round53 (sin x); m_erf := fun x => round53 (sin x) |}.
Lemma funs53_accurate : accurate_fun (/ 2 ^ 53) (/ 2 ^ 53) 1 sin funs53.
Proof.
  unfold accurate_fun, funs53. cbn [m_pi m_exp m_log m_sin m_erf]. repeat split; intros; try apply round53_near. rewrite Rmult_1_l. apply sin_lip.
Qed.
Lemma tiny : 0 < / 2 ^ 53 <= / 1000000.
Proof. split; [apply Rinv_0_lt_compat, pow_lt; lra|]. apply Rinv_le_contravar; [lra|]. rewrite pow_IZR. apply IZR_le. vm_compute. discriminate. Qed.

Definition activation : val := VMulti (MO MMulti 50000 [BU "J" (eint 1)] [BU "mol" (eint 1)]).
Definition gas : val := VMulti (MO MMulti 8.314 [BU "J" (eint 1)] [BU "mol" (eint 1); BU "K" (eint 1)]).
Definition kelvin (x : R) : val := VUnit (UO Temperature x "K" (eint 1)).
Lemma rate_case : arrhenius_units (eint 1) = Ok "s^-1" /\ (exists vA, constant 1000 "s^-1" = Ok vA) /\
  eval (rate_exponent activation gas (kelvin 300)) = Ok (VNum (- (50000) / (300 * 8.314))) /\ roundings (rate_exponent activation gas (kelvin 300)) = 2%nat /\
  INR 2 * / 2 ^ 53 <= / 100 /\ Rabs (- (50000) / (300 * 8.314)) * (INR 2 * / 2 ^ 53) <= / 100.
Proof.
  split; [reflexivity|]. split; [eexists; reflexivity|]. split.
  { unfold activation, gas, kelvin. set (t := 300). set (r := 8.314).
    assert (e : eval (rate_exponent (VMulti (MO MMulti 50000 [BU "J" (eint 1)] [BU "mol" (eint 1)])) (VMulti (MO MMulti r [BU "J" (eint 1)] [BU "mol" (eint 1); BU "K" (eint 1)])) (VUnit (UO Temperature t "K" (eint 1))))
      = rmap VNum (@pydiv R Rnum (- (50000)) (t * r))) by reflexivity.
    rewrite e, pydiv_r by (unfold t, r; lra). reflexivity. }
  split; [reflexivity|]. pose proof tiny as k. split; [cbn; lra|]. rewrite Rabs_left by lra. cbn [INR]. lra.
Qed.
Definition one : val := VNum 1.
Lemma lumped_case : eval (lumped_exponent one one one one one (VNum 2)) = Ok (VNum (- 2)) /\ INR (roundings (lumped_exponent one one one one one (VNum 2))) * / 2 ^ 53 <= / 100.
Proof.
  pose proof tiny as k. split; [|cbn; lra].
  assert (e : eval (lumped_exponent one one one one one (VNum 2)) = rmap VNum (@pydiv R Rnum (- (1 * 1 * 2)) (1 * 1 * 1))) by reflexivity.
  rewrite e, pydiv_r by lra. cbn [rmap]. f_equal. f_equal. field.
Qed.
Lemma lumped_bounded : exists d, error_bound (/ 2 ^ 53) (/ 2 ^ 53) 1 sin (lumped_term (kelvin 300) (kelvin 400) one one one one one (VNum 2)) = Some d.
Proof.
  pose proof tiny as k. unfold error_bound, lumped_term, lumped_exponent, one, kelvin. set (u := / 2 ^ 53) in *. clearbody u.
  cbn -[may_be_equal e_mul e_div e_sub more IZR whole]. unfold pydiv. cbn -[may_be_equal e_mul e_div e_sub more IZR whole].
  match goal with |- context [may_be_equal ?p ?q] => assert (e : may_be_equal p q = false) end.
  { unfold may_be_equal. change (whole 0) with true. unfold e_mul, more. cbn [fst snd]. rewrite Rabs_R1. replace (Q2R 0) with 0 by (unfold Q2R; cbn; field).
    rewrite !Rmult_1_l, !Rmult_1_r, Rminus_0_r, !Rplus_0_r, Rabs_R1. destruct (Rle_dec _ _) as [h|h]; [exfalso|reflexivity]. assert (u * u <= u * / 1000000) by (apply Rmult_le_compat_l; lra). lra. }
  rewrite e. cbn -[may_be_equal e_mul e_div e_sub more IZR whole]. eexists. reflexivity.
Qed.
Lemma reach_case : exists x, eval (reach one one one) = Ok (VNum x) /\ eval (reach_heat one one one one one) = Ok (VNum x) /\ 0 <= sin x <= 1 /\
  INR (roundings (reach one one one)) * / 2 ^ 53 <= / 100 /\ INR (roundings (reach_heat one one one one one)) * / 2 ^ 53 <= / 100.
Proof.
  pose proof tiny as k. set (w := Rpower 4 (QcR (ev half_))). assert (hw : 1 <= w).
  { unfold w. replace (QcR (ev half_)) with (/ 2) by (unfold QcR, half_; cbn; unfold Q2R; cbn; lra). rewrite Rpower_sqrt by lra. rewrite <- sqrt_1. apply sqrt_le_1; lra. }
  exists (1 / w). assert (hx : 0 < 1 / w <= 1). { split; [apply Rdiv_lt_0_compat; lra|]. apply (Rmult_le_reg_r w); [lra|]. unfold Rdiv. rewrite Rmult_assoc, Rinv_l by lra. lra. }
  split; [|split; [|split]].
  - unfold eval, reach, one. cbn [eval bind py_mul py_div py_pow nmul npow Rnum]. replace (4 * 1 * 1) with 4 by ring. rewrite Rpowq_pos by lra. fold w. cbn [rmap bind]. rewrite pydiv_r by lra. reflexivity.
  - unfold eval, reach_heat, diffusivity, one. cbn [eval bind py_mul py_div py_pow nmul npow Rnum]. rewrite (pydiv_r 1 (1 * 1)) by lra. cbn [rmap bind py_mul nmul Rnum]. replace (4 * (1 / (1 * 1)) * 1) with 4 by field. cbn [py_pow npow Rnum]. rewrite Rpowq_pos by lra. fold w.
    cbn [rmap bind py_div]. rewrite pydiv_r by lra. reflexivity.
  - split; [|apply SIN_bound]. apply sin_ge_0; [lra|]. pose proof PI2_1. lra.
  - assert (c : roundings (reach one one one) = 4%nat /\ roundings (reach_heat one one one one one) = 6%nat) by (split; vm_compute; reflexivity).
    destruct c as (-> & ->). split; cbn [INR]; lra.
Qed.
Lemma mean_case : py_sub (kelvin 400) (kelvin 310) = Ok (kelvin 90) /\ py_sub (kelvin 350) (kelvin 300) = Ok (kelvin 50) /\ (90 + 50) / Rabs (90 - 50) * / 2 ^ 53 <= / 300.
Proof.
  pose proof tiny as k. split; [|split].
  - unfold kelvin. cbn -[IZR Rminus]. do 2 f_equal. f_equal. cbn. lra.
  - unfold kelvin. cbn -[IZR Rminus]. do 2 f_equal. f_equal. cbn. lra.
  - rewrite Rabs_pos_eq by lra. lra.
Qed.

(** An arithmetic whose quotients come out large. *)
Definition large_quotients (u : R) : arith := {|
  a_add := fun x y => x + y; a_sub := fun x y => x - y; a_mul := fun x y => x * y; a_div := fun x y => x / y * (1 + u);
  a_lit := fun q => Q2R q; a_pow := Rpowq |}.
Definition true_funs : funs := {| m_pi := PI; m_exp := exp; m_log := ln; m_sin := sin; m_erf := sin |}.
Lemma near_self w x : 0 <= w -> near1 w x x.
Proof. intro h. unfold near1. replace (x - x) with 0 by ring. rewrite Rabs_R0. apply Rmult_le_pos; [exact h|apply Rabs_pos]. Qed.
Lemma large_accurate u : 0 < u -> accurate u (large_quotients u).
Proof.
  intro h. repeat split; intros; cbn [a_add a_sub a_mul a_div a_lit a_pow large_quotients]; try (apply near_self; lra).
  - unfold near1. replace (x / y * (1 + u) - x / y) with (u * (x / y)) by ring. rewrite Rabs_mult, (Rabs_pos_eq u) by lra. lra.
  - unfold Q2R. cbn. field.
  - destruct (Rpowq x q) as [w|e]; [|reflexivity]. exists w. split; [reflexivity|apply near_self; lra].
Qed.
Lemma true_accurate u v : 0 <= u -> 0 <= v -> accurate_fun u v 1 sin true_funs.
Proof. intros hu hv. repeat split; intros; cbn [m_pi m_exp m_log m_sin m_erf true_funs]; try (apply near_self; assumption). rewrite Rmult_1_l. apply sin_lip. Qed.
Lemma rate_uniform u K : 0 < u < 1 -> K * u < 1 -> exists a m vA E, accurate u a /\ accurate_fun u 0 1 sin m /\ constant 1 "s^-1" = Ok vA /\ 0 < E /\
  ~ same_outcome (near1 (K * u)) (arrhenius (eint 1) [AVal (VNum 1); AVal (VNum E); AVal (VNum 1); AVal (VNum 1)] []) (floats a m (rate_term vA (VNum E) (VNum 1) (VNum 1))).
Proof.
  intros hu hK. destruct (constant 1 "s^-1") as [vA|] eqn:hA; [|discriminate hA]. set (M := Rmax (K * u) 0).
  assert (hM : 0 <= M < 1) by (unfold M; split; [apply Rmax_r|apply Rmax_lub_lt; lra]). assert (kM : K * u <= M) by apply Rmax_l. clearbody M.
  assert (l0 : ln (1 - M) <= 0). { pose proof (ln_upper (1 - M) ltac:(lra)). lra. }
  set (E := (1 - ln (1 - M)) / u). assert (hE : 0 < E) by (apply Rdiv_lt_0_compat; lra).
  assert (hx : exp (- (E * u)) < 1 - M).
  { replace (- (E * u)) with (ln (1 - M) + - (1)) by (unfold E; field; lra). rewrite exp_plus, exp_ln by lra. assert (exp (- (1)) < 1) by (pose proof (exp_increasing (- (1)) 0 ltac:(lra)) as q; rewrite exp_0 in q; exact q).
    assert ((1 - M) * exp (- (1)) < (1 - M) * 1) by (apply Rmult_lt_compat_l; lra). lra. }
  exists (large_quotients u), true_funs, vA, E. pose proof (large_accurate u (proj1 hu)) as la. split; [exact la|]. split; [apply true_accurate; lra|]. split; [reflexivity|]. split; [exact hE|].
  rewrite <- (run_rate sin (eint 1) "s^-1" 1 vA) by (reflexivity || exact hA).
  assert (c : exists mA, vA = VMulti mA /\ mv mA = 1).
  { unfold constant in hA. destruct (mk_multi MMulti 1 "s^-1") as [mA|] eqn:h; [|discriminate]. injection hA as <-. exists mA. split; [reflexivity|]. cbn in h. injection h as <-. reflexivity. }
  destruct c as (mA & -> & h1). clearbody E.
  unfold exact, floats, rate_term, rate_exponent. cbn [plain teval bind py_neg py_mul py_div]. cbn [nopp nmul Rnum Fnum a_mul large_quotients].
  rewrite pydiv_r by lra. change (fun x y : R => x * y) with Rmult. rewrite (pydiv_f u _ la) by lra.
  cbn [rmap bind on_number fexp Rfn Ffn m_exp true_funs multi_mul nmul Rnum Fnum a_mul a_div large_quotients same_outcome same_but mc mv mtop mbot].
  intros (_ & _ & _ & h). unfold near1 in h. rewrite h1, !Rmult_1_l in h.
  replace (- E / 1) with (- E) in h by field. replace (- E * (1 + u)) with (- E + - (E * u)) in h by ring. rewrite exp_plus in h. pose proof (exp_pos (- E)) as pe.
  replace (exp (- E) * exp (- (E * u)) - exp (- E)) with (- (exp (- E) * (1 - exp (- (E * u))))) in h by ring.
  rewrite Rabs_Ropp, Rabs_mult, (Rabs_pos_eq (exp (- E))), (Rabs_pos_eq (1 - _)) in h by lra. rewrite (Rmult_comm (K * u)) in h. apply Rmult_le_reg_l in h; [|exact pe]. lra.
Qed.
