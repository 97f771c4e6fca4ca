(** * FuncPulseCases: pulses and pipes in SI units *)
From Coq Require Import String List ZArith QArith Qcanon Bool Reals Lra Lia.
From Verif Require Import Py Num UnitsData UnitsStruct Units Expr Rounding Formulas RoundSpec Func FuncSpec FuncErr FuncFacts FuncBounds FuncDecay FuncMean FuncCases FactorFacts FuncCount FuncPulse.
Import ListNotations.
Local Open Scope string_scope.
Local Open Scope list_scope.
Local Open Scope R_scope.

Definition metres (x : R) : val := VUnit (UO Length x "m" (eint 1)).
Definition seconds (x : R) : val := VUnit (UO Time x "s" (eint 1)).
Definition kilograms (x : R) : val := VUnit (UO Mass x "kg" (eint 1)).
Definition square_metres (x : R) : val := VMulti (MO MMulti x [BU "m" (eint 2)] []).
Definition diffusion (x : R) : val := VMulti (MO MMulti x [BU "m" (eint 2)] [BU "s" (eint 1)]).
Definition conductivity (x : R) : val := VMulti (MO MMulti x [BU "W" (eint 1)] [BU "m" (eint 1); BU "K" (eint 1)]).
Lemma exponent_si d D t : 0 < D -> 0 < t -> eval (pulse_exponent (metres d) (diffusion D) (seconds t)) = Ok (VNum (- (d ^ 2 / (4 * D * t)))).
Proof.
  intros hD ht. unfold eval, pulse_exponent. cbn [geval bind].
  assert (e1 : py_pow (metres d) (eint 2) = rmap (fun x => VUnit (UO Length x "m" (eint 2))) (Rpowq d (qc 2))) by reflexivity.
  rewrite e1, Rpowq_int by (right; lia). cbn [rmap bind powerRZ]. change (Pos.to_nat 2) with 2%nat.
  assert (e2 : py_neg (VUnit (UO Length (d ^ 2) "m" (eint 2))) = Ok (VUnit (UO Length (- d ^ 2) "m" (eint 2)))) by (vm_compute; reflexivity).
  rewrite e2. cbn [bind].
  assert (e3 : py_mul (VNum 4) (diffusion D) = Ok (diffusion (4 * D))) by (vm_compute; reflexivity).
  rewrite e3. cbn [bind].
  assert (e4 : py_mul (diffusion (4 * D)) (seconds t) = Ok (VUnit (UO UUnit (t * (4 * D)) "m" (eint 2)))) by (vm_compute; reflexivity).
  rewrite e4. cbn [bind].
  assert (e5 : py_div (VUnit (UO Length (- d ^ 2) "m" (eint 2))) (VUnit (UO UUnit (t * (4 * D)) "m" (eint 2))) = rmap VNum (@pydiv R Rnum (- d ^ 2) (t * (4 * D)))).
  { transitivity (let* q := @pydiv R Rnum (- d ^ 2) (t * (4 * D)) in Ok (VNum q)); [reflexivity|]. destruct (pydiv _ _); reflexivity. }
  assert (h : 0 < t * (4 * D)) by (apply Rmult_lt_0_compat; lra).
  rewrite e5, pydiv_r by lra. cbn [rmap]. f_equal. f_equal. field. lra.
Qed.

Lemma three_d_count mass D t K : roundings_from [VNum (S K); VNum 1%nat] (three_d_shape (kilograms mass) (diffusion D) (seconds t) "sphere") = (K + 12)%nat.
Proof. transitivity (S (S (S (K + 9)))); [vm_compute; reflexivity|lia]. Qed.
Lemma two_d_count mass len D t K : roundings_from [VNum (S K); VNum 1%nat] (two_d_shape (kilograms mass) (metres len) (diffusion D) (seconds t)) = (K + 9)%nat.
Proof. transitivity (S (S (S (S (S (K + 4 + 0)))))); [vm_compute; reflexivity|lia]. Qed.
Lemma one_d_count mass area D t K : roundings_from [VNum (S K); VNum 1%nat] (one_d_shape (kilograms mass) (square_metres area) (diffusion D) (seconds t)) = (K + 10)%nat.
Proof. transitivity (S (S (S (S (S (K + 5 + 0)))))); [vm_compute; reflexivity|lia]. Qed.
Lemma exponent_count d D t : roundings (pulse_exponent (metres d) (diffusion D) (seconds t)) = 4%nat.
Proof. vm_compute. reflexivity. Qed.
Lemma pipe_count k len th K : roundings_from [VNum 1%nat; once (kelvin th); VNum (S K)] (pipe_shape (conductivity k) (metres len)) = (K + 8)%nat.
Proof. transitivity (S (S (S (S (K + 4))))); [vm_compute; reflexivity|lia]. Qed.
Lemma ratio_count x y : roundings (EDiv (ELeaf (metres x)) (ELeaf (metres y))) = 1%nat.
Proof. vm_compute. reflexivity. Qed.
Lemma ratio_si x y : 0 < y -> eval (EDiv (ELeaf (metres x)) (ELeaf (metres y))) = Ok (VNum (x / y)).
Proof.
  intro h. transitivity (let* q := @pydiv R Rnum x y in Ok (@VNum R q)); [reflexivity|]. rewrite pydiv_r by lra. reflexivity.
Qed.
Lemma difference_si x y : py_sub (kelvin x) (kelvin y) = Ok (kelvin (x - y)).
Proof. vm_compute. reflexivity. Qed.
Section SI.
Variables u L : R.
Hypothesis hu : 0 <= u <= / 1000.
Variable a : arith.
Hypothesis ha : accurate u a.
Variable erf : R -> R.
Variable m : funs.
Hypothesis hm : accurate_fun u u L erf m.
Lemma pulses_si mass d D t len area K : 0 < D -> 0 < t -> 1.02 * d ^ 2 / (D * t) <= INR K -> (INR K + 12) * u <= / 100 ->
  same_outcome (near1 (1.02 * ((INR K + 12) * u))) (three_d_pulse_decay (kilograms mass) (metres d) (diffusion D) (seconds t) "sphere")
    (floats a m (three_d_term (kilograms mass) (metres d) (diffusion D) (seconds t) "sphere")) /\
  same_outcome (near1 (1.02 * ((INR K + 9) * u))) (two_d_pulse_decay (kilograms mass) (metres len) (metres d) (diffusion D) (seconds t))
    (floats a m (two_d_term (kilograms mass) (metres len) (metres d) (diffusion D) (seconds t))) /\
  same_outcome (near1 (1.02 * ((INR K + 10) * u))) (one_d_pulse_decay (kilograms mass) (square_metres area) (metres d) (diffusion D) (seconds t))
    (floats a m (one_d_term (kilograms mass) (square_metres area) (metres d) (diffusion D) (seconds t))).
Proof.
  intros hD ht hK hN. assert (hu' : 0 <= u <= / 100) by lra.
  assert (hn : INR (roundings (pulse_exponent (metres d) (diffusion D) (seconds t))) * u <= / 100) by (rewrite exponent_count; cbn [INR]; lra).
  assert (k : 1.02 * Rabs (- (d ^ 2 / (4 * D * t))) * INR (roundings (pulse_exponent (metres d) (diffusion D) (seconds t))) <= INR K).
  { rewrite exponent_count, Rabs_Ropp, Rabs_pos_eq.
    - replace (1.02 * (d ^ 2 / (4 * D * t)) * INR 4) with (1.02 * d ^ 2 / (D * t)) by (cbn [INR]; field; lra). exact hK.
    - apply Rmult_le_pos; [apply pow2_ge_0|]. left. apply Rinv_0_lt_compat, Rmult_lt_0_compat; lra. }
  pose proof (exponent_si d D t hD ht) as e.
  pose proof (three_d_error u L hu' a ha erf m hm _ _ _ _ e hn K k (kilograms mass) "sphere") as h3.
  pose proof (two_d_error u L hu' a ha erf m hm _ _ _ _ e hn K k (kilograms mass) (metres len)) as h2.
  pose proof (one_d_error u L hu' a ha erf m hm _ _ _ _ e hn K k (kilograms mass) (square_metres area)) as h1.
  rewrite three_d_count, plus_INR in h3. rewrite two_d_count, plus_INR in h2. rewrite one_d_count, plus_INR in h1.
  replace (INR 12) with 12 in h3 by (cbn; lra). replace (INR 9) with 9 in h2 by (cbn; lra). replace (INR 10) with 10 in h1 by (cbn; lra).
  split; [apply h3|split; [apply h2|apply h1]]; lra.
Qed.
Lemma pipe_si k T1 T2 len r2 r1 K : 0 < r1 -> 0 < r2 -> r1 <> r2 -> 1.05 <= INR K * Rabs (ln (r2 / r1)) -> (INR K + 8) * u <= / 100 ->
  same_outcome (near1 (1.02 * ((INR K + 8) * u))) (pipe_heat (conductivity k) (kelvin T1) (kelvin T2) (metres len) (metres r2) (metres r1))
    (floats a m (pipe_term (conductivity k) (kelvin T1) (kelvin T2) (metres len) (metres r2) (metres r1))).
Proof.
  intros h1 h2 hne hK hN. assert (hu' : 0 <= u <= / 100) by lra.
  assert (hx : 0 < r2 / r1) by (apply Rdiv_lt_0_compat; lra).
  assert (hx1 : r2 / r1 <> 1). { intro e. apply hne. apply (f_equal (fun z => z * r1)) in e. unfold Rdiv in e. rewrite Rmult_assoc, Rinv_l in e by lra. lra. }
  pose proof (pipe_error u L hu' a ha erf m hm (conductivity k) (kelvin T1) (kelvin T2) (metres len) (metres r2) (metres r1) (kelvin (T2 - T1)) (r2 / r1)
    (difference_si T2 T1) (ratio_si r2 r1 h1) hx hx1) as h. specialize (fun w => h w K).
  rewrite ratio_count in h. cbv zeta in h. rewrite pipe_count, plus_INR in h. replace (INR 8) with 8 in h by (cbn; lra). apply h; cbn [INR]; lra.
Qed.
End SI.
Lemma pulses_si_case : 1.02 * 2 ^ 2 / (1 * 1) <= INR 5 /\ (INR 5 + 12) * / 2 ^ 53 <= / 100.
Proof. pose proof tiny. cbn [INR]. lra. Qed.
Lemma pipe_si_case : 1.05 <= INR 3 * Rabs (ln (2 / 1)) /\ (INR 3 + 8) * / 2 ^ 53 <= / 100.
Proof.
  pose proof tiny. pose proof ln_lt_2. replace (2 / 1) with 2 by lra. rewrite Rabs_pos_eq by lra. cbn [INR]. lra.
Qed.
