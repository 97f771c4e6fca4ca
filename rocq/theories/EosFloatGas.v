(** * EosFloatGas: a case for Peng and Robinson's vapor in binary64 *)
From Coq Require Import String List ZArith QArith Qcanon Bool Reals Lra Lia.
From Coq Require Import Floats.SpecFloat.
From Verif Require Import Py Num UnitsData UnitsStruct Units Rounding Range RangeSpec Eos EosSpec EosFloatSpec EosFloatHalves.
Local Open Scope string_scope.
Local Open Scope R_scope.
(** Water at 500 K and [P] kPa. *)
Definition peng_gas (P : spec_float) (n : Z) : res (pyval spec_float) :=
  @peng_robinson spec_float (Bpow halves_pow) (temp64 "K" (f_int 500)) (pres64 "kPa" P) (temp64 "K" (f_int 647)) (pres64 "kPa" (f_int 22064)) "vapor" (VNum (f_lit (11 # 32))) n.
Lemma gas_conditions : let t := 500 / 647 in let r := 100 / 22064 in let y := 1 + (0.37464 + 1.54226 * (11 / 32) - 0.26992 * (11 / 32) ^ 2) * (1 - sqrt t) in
  let q := 0.45724 * y ^ 2 / (0.07780 * t) in let k := 0.45724 * y ^ 2 * r / t ^ 2 in
  0.07780 * r <= 1 / 2 * t /\ k <= 1 / 5 /\ q * k <= 1 / 6.
Proof.
  cbv zeta. assert (h : 0.879 <= sqrt (500 / 647) <= 0.88).
  { split; [rewrite <- (sqrt_square 0.879) by lra|rewrite <- (sqrt_square 0.88) by lra]; apply sqrt_le_1_alt; lra. }
  set (s := sqrt (500 / 647)) in *. clearbody s. set (y := 1 + _ * (1 - s)). assert (hy : 1.1 <= y <= 1.12) by (unfold y; lra). clearbody y. assert (hy2 : 1.21 <= y ^ 2 <= 1.26) by nra.
  set (Y := y ^ 2) in *. clearbody Y. split; [lra|]. split; [lra|]. nra.
Qed.
Lemma gas_runs : peng_gas (f_int 100) 11 = Ok (VNum (S754_finite false 8972998014974236 (-53))).
Proof. vm_compute. reflexivity. Qed.
(** At 2^-80 kPa (1 + beta) - 1 is 0: the first value is beta itself, the next is 1. *)
Lemma thin_runs : peng_gas (f_lit (1 # 2 ^ 80)) 0 = Ok (VNum (S754_finite false 5386781016624732 (-150))) /\ peng_gas (f_lit (1 # 2 ^ 80)) 1 = Ok (VNum (S754_finite false 4503599627370496 (-52))).
Proof. split; vm_compute; reflexivity. Qed.
