(** * Properties of the cubic equations of state in binary64 (C105)

    "ordinary", "finds_greatest64" and "finds_least64" are those of EosFloatSpec, the laws and "compressibility" of EosSpec,
    "pow_good" of RangeSpec. *)
From Coq Require Import String List ZArith QArith Qcanon Bool Reals.
From Coq Require Import Floats.SpecFloat.
From Verif Require Import Py Num UnitsData UnitsStruct Units Rounding Range RangeSpec Eos EosSpec EosFloatSpec EosFloatCalls EosFloatCases EosFloatAlpha EosFloatSoave EosFloatPeng EosFloatPengVapor EosFloatHalves EosFloatGas.
Import ListNotations.
Local Open Scope string_scope.
Local Open Scope list_scope.
Local Open Scope R_scope.

(** ** C105 *)
Theorem C105_rk_vapor : forall u allowed p, / 2 ^ 53 <= u <= / 2 ^ 40 -> pow_good u allowed p -> allowed (Q2Qc (-1 # 2)) = true ->
  forall tn pn T P Tc Pc, ordinary 100 T -> ordinary 100 P -> ordinary 100 Tc -> ordinary 100 Pc ->
  let t := SFR T / SFR Tc in let r := SFR P / SFR Pc in let k := 0.42748 * r / (t ^ 2 * sqrt t) in
  0.08664 * r <= 1 / 2 * t -> k <= 1 / 5 ->
  finds_greatest64 redlich_kwong_law T P Tc Pc (@rendlich_kwong spec_float (Bpow p) (temp64 tn T) (pres64 pn P) (temp64 tn Tc) (pres64 pn Pc) "vapor")
    (fun n => (4 * k) ^ S n / 2 + 150 * u).
Proof. exact rk_float64. Qed.
Print Assumptions C105_rk_vapor.
Theorem C105_vdw_vapor : forall p tn pn T P Tc Pc, ordinary 100 T -> ordinary 100 P -> ordinary 100 Tc -> ordinary 100 Pc ->
  let t := SFR T / SFR Tc in let r := SFR P / SFR Pc in let k := 27 / 64 * r / t ^ 2 in
  1 / 8 * r <= 1 / 2 * t -> k <= 1 / 5 ->
  finds_greatest64 (kwong_form (1 / 8) (27 / 64)) T P Tc Pc (@van_der_waals spec_float (Bpow p) (temp64 tn T) (pres64 pn P) (temp64 tn Tc) (pres64 pn Pc) "vapor")
    (fun n => (4 * k) ^ S n / 2 + 150 * / 2 ^ 53).
Proof. exact vdw_float64. Qed.
Print Assumptions C105_vdw_vapor.
Theorem C105_rk_liquid : forall u allowed p, / 2 ^ 53 <= u <= / 2 ^ 40 -> pow_good u allowed p -> allowed (Q2Qc (-1 # 2)) = true ->
  forall tn pn T P Tc Pc, ordinary 50 T -> ordinary 50 P -> ordinary 50 Tc -> ordinary 50 Pc ->
  let t := SFR T / SFR Tc in let r := SFR P / SFR Pc in let q := 0.42748 / sqrt t / (0.08664 * t) in let b := 0.08664 * (r / t) in
  6 <= q -> b <= 8 / 11 ->
  finds_least64 redlich_kwong_law T P Tc Pc (@rendlich_kwong spec_float (Bpow p) (temp64 tn T) (pres64 pn P) (temp64 tn Tc) (pres64 pn Pc) "liquid") b
    (fun n => (5.01 / q) ^ S n * b + 900 * u * b).
Proof. exact rk_liquid64. Qed.
Print Assumptions C105_rk_liquid.
Theorem C105_vdw_liquid : forall p tn pn T P Tc Pc, ordinary 50 T -> ordinary 50 P -> ordinary 50 Tc -> ordinary 50 Pc ->
  let t := SFR T / SFR Tc in let r := SFR P / SFR Pc in let q := 27 / 64 / (1 / 8 * t) in let b := 1 / 8 * (r / t) in
  6 <= q -> b <= 8 / 11 ->
  finds_least64 (kwong_form (1 / 8) (27 / 64)) T P Tc Pc (@van_der_waals spec_float (Bpow p) (temp64 tn T) (pres64 pn P) (temp64 tn Tc) (pres64 pn Pc) "liquid") b
    (fun n => (5.01 / q) ^ S n * b + 900 * / 2 ^ 53 * b).
Proof. exact vdw_liquid64. Qed.
Print Assumptions C105_vdw_liquid.
(** Soave's equation; Peng and Robinson's liquid, of the equation it iterates (C45). *)
Theorem C105_srk_vapor : forall u allowed p, / 2 ^ 53 <= u <= / 2 ^ 46 -> pow_good u allowed p -> allowed (Q2Qc (1 # 2)) = true -> allowed (Q2Qc 2) = true ->
  forall tn pn T P Tc Pc w, ordinary 100 T -> ordinary 100 P -> ordinary 100 Tc -> ordinary 100 Pc -> finite64 w -> sized 100 (SFR w) -> Rabs (SFR w) <= 1 ->
  let t := SFR T / SFR Tc in let r := SFR P / SFR Pc in let y := 1 + (0.480 + 1.574 * SFR w - 0.176 * SFR w ^ 2) * (1 - sqrt t) in let k := 0.42748 * y ^ 2 * r / t ^ 2 in
  t <= 4 -> 1 / 2 <= y -> 0.08664 * r <= 1 / 2 * t -> k <= 1 / 5 ->
  finds_greatest64 (soave_law (SFR w)) T P Tc Pc (@soave_rendlich_kwong spec_float (Bpow p) (temp64 tn T) (pres64 pn P) (temp64 tn Tc) (pres64 pn Pc) "vapor" (VNum w))
    (fun n => (4 * k) ^ S n / 2 + 7500 * u).
Proof. exact srk_float64. Qed.
Print Assumptions C105_srk_vapor.
Theorem C105_srk_liquid : forall u allowed p, / 2 ^ 53 <= u <= / 2 ^ 46 -> pow_good u allowed p -> allowed (Q2Qc (1 # 2)) = true -> allowed (Q2Qc 2) = true ->
  forall tn pn T P Tc Pc w, ordinary 50 T -> ordinary 50 P -> ordinary 50 Tc -> ordinary 50 Pc -> finite64 w -> sized 100 (SFR w) -> Rabs (SFR w) <= 1 ->
  let t := SFR T / SFR Tc in let r := SFR P / SFR Pc in let y := 1 + (0.480 + 1.574 * SFR w - 0.176 * SFR w ^ 2) * (1 - sqrt t) in
  let q := 0.42748 * y ^ 2 / (0.08664 * t) in let b := 0.08664 * (r / t) in
  t <= 4 -> 1 / 2 <= y -> 6 <= q -> b <= 8 / 11 ->
  finds_least64 (soave_law (SFR w)) T P Tc Pc (@soave_rendlich_kwong spec_float (Bpow p) (temp64 tn T) (pres64 pn P) (temp64 tn Tc) (pres64 pn Pc) "liquid" (VNum w)) b
    (fun n => (5.01 / q) ^ S n * b + 45000 * u * b).
Proof. exact srk_liquid64. Qed.
Print Assumptions C105_srk_liquid.
Theorem C105_pr_liquid : forall u allowed p, / 2 ^ 53 <= u <= / 2 ^ 46 -> pow_good u allowed p -> allowed (Q2Qc (1 # 2)) = true -> allowed (Q2Qc 2) = true ->
  forall tn pn T P Tc Pc w, ordinary 50 T -> ordinary 50 P -> ordinary 50 Tc -> ordinary 50 Pc -> finite64 w -> sized 100 (SFR w) -> Rabs (SFR w) <= 1 ->
  let t := SFR T / SFR Tc in let r := SFR P / SFR Pc in let y := 1 + (0.37464 + 1.54226 * SFR w - 0.26992 * SFR w ^ 2) * (1 - sqrt t) in
  let q := 0.45724 * y ^ 2 / (0.07780 * t) in let b := 0.07780 * (r / t) in
  t <= 4 -> 1 / 2 <= y -> 6 <= q -> b <= 8 / 11 ->
  finds_least64 (kwong_form 0.07780 (0.45724 * y ^ 2)) T P Tc Pc (@peng_robinson spec_float (Bpow p) (temp64 tn T) (pres64 pn P) (temp64 tn Tc) (pres64 pn Pc) "liquid" (VNum w)) b
    (fun n => (5.01 / q) ^ S n * b + 45000 * u * b).
Proof. exact pr_liquid64. Qed.
Print Assumptions C105_pr_liquid.
(** The first step is of another equation: the count of iterations starts after it. *)
Theorem C105_pr_vapor : forall u allowed p, / 2 ^ 53 <= u <= / 2 ^ 46 -> pow_good u allowed p -> allowed (Q2Qc (1 # 2)) = true -> allowed (Q2Qc 2) = true ->
  forall tn pn T P Tc Pc w, ordinary 100 T -> ordinary 100 P -> ordinary 100 Tc -> ordinary 100 Pc -> finite64 w -> sized 100 (SFR w) -> Rabs (SFR w) <= 1 ->
  let t := SFR T / SFR Tc in let r := SFR P / SFR Pc in let y := 1 + (0.37464 + 1.54226 * SFR w - 0.26992 * SFR w ^ 2) * (1 - sqrt t) in
  let q := 0.45724 * y ^ 2 / (0.07780 * t) in let k := 0.45724 * y ^ 2 * r / t ^ 2 in
  t <= 4 -> 1 / 2 <= y -> 0.07780 * r <= 1 / 2 * t -> k <= 1 / 5 -> q * k <= 1 / 6 ->
  finds_greatest64 (kwong_form 0.07780 (0.45724 * y ^ 2)) T P Tc Pc (fun n => @peng_robinson spec_float (Bpow p) (temp64 tn T) (pres64 pn P) (temp64 tn Tc) (pres64 pn Pc) "vapor" (VNum w) (n + 1))
    (fun n => 3 / 2 * (4 * k) ^ n + 7500 * u).
Proof. exact pr_vapor64. Qed.
Print Assumptions C105_pr_vapor.
(** There are such power functions. *)
Example C105_halves : pow_good (/ 2 ^ 51) halves_allowed halves_pow /\ halves_allowed (Q2Qc (1 # 2)) = true /\ halves_allowed (Q2Qc 2) = true.
Proof. split; [exact halves_good|split; reflexivity]. Qed.
Example C105_powers : pow_good (/ 2 ^ 52) root_allowed root_pow /\ root_allowed (Q2Qc (-1 # 2)) = true.
Proof. split; [exact root_good|reflexivity]. Qed.
(** Water at 500 K and 100 kPa meets the conditions of both states; its calls. *)
Example C105_case : forall z, In z [500; 100; 647; 22064]%Z -> ordinary 50 (f_int z) /\ SFR (f_int z) = IZR z.
Proof. exact water_float. Qed.
Example C105_gas_case : 0.08664 * (100 / 22064) <= 1 / 2 * (500 / 647) /\ 0.42748 * (100 / 22064) / ((500 / 647) ^ 2 * sqrt (500 / 647)) <= 1 / 5.
Proof. exact water_gas. Qed.
Example C105_cold_case : 6 <= 0.42748 / sqrt (500 / 647) / (0.08664 * (500 / 647)) /\ 0.08664 * (100 / 22064 / (500 / 647)) <= 8 / 11.
Proof. exact water_cold. Qed.
Example C105_runs : water "vapor" 10 = Ok (VNum (S754_finite false 8978463918298964 (-53))) /\ water "liquid" 10 = Ok (VNum (S754_finite false 7197464947945051 (-63))).
Proof. exact water_runs. Qed.
(** The same with the acentric factor 11/32. *)
Example C105_acentric : finite64 (f_lit (11 # 32)) /\ SFR (f_lit (11 # 32)) = 11 / 32 /\ sized 100 (11 / 32) /\ Rabs (11 / 32) <= 1.
Proof. exact soave_w. Qed.
Example C105_srk_case : let t := 500 / 647 in let r := 100 / 22064 in let y := 1 + (0.480 + 1.574 * (11 / 32) - 0.176 * (11 / 32) ^ 2) * (1 - sqrt t) in
  t <= 4 /\ 1 / 2 <= y /\ 0.08664 * r <= 1 / 2 * t /\ 0.42748 * y ^ 2 * r / t ^ 2 <= 1 / 5 /\ 6 <= 0.42748 * y ^ 2 / (0.08664 * t) /\ 0.08664 * (r / t) <= 8 / 11.
Proof. exact soave_conditions. Qed.
Example C105_pr_case : let t := 500 / 647 in let r := 100 / 22064 in let y := 1 + (0.37464 + 1.54226 * (11 / 32) - 0.26992 * (11 / 32) ^ 2) * (1 - sqrt t) in
  t <= 4 /\ 1 / 2 <= y /\ 6 <= 0.45724 * y ^ 2 / (0.07780 * t) /\ 0.07780 * (r / t) <= 8 / 11.
Proof. exact peng_conditions. Qed.
Example C105_acentric_runs : soave_water "vapor" 10 = Ok (VNum (S754_finite false 8974965572924728 (-53))) /\
  soave_water "liquid" 10 = Ok (VNum (S754_finite false 6728966858616203 (-63))) /\ peng_water 10 = Ok (VNum (S754_finite false 5620383446799113 (-63))).
Proof. split; [apply soave_runs|split; [apply soave_runs|apply peng_runs]]. Qed.
Example C105_pr_gas_case : let t := 500 / 647 in let r := 100 / 22064 in let y := 1 + (0.37464 + 1.54226 * (11 / 32) - 0.26992 * (11 / 32) ^ 2) * (1 - sqrt t) in
  let q := 0.45724 * y ^ 2 / (0.07780 * t) in let k := 0.45724 * y ^ 2 * r / t ^ 2 in
  0.07780 * r <= 1 / 2 * t /\ k <= 1 / 5 /\ q * k <= 1 / 6.
Proof. exact gas_conditions. Qed.
Example C105_pr_gas_runs : peng_gas (f_int 100) 11 = Ok (VNum (S754_finite false 8972998014974236 (-53))).
Proof. exact gas_runs. Qed.
Example C105_pr_thin_runs : peng_gas (f_lit (1 # 2 ^ 80)) 0 = Ok (VNum (S754_finite false 5386781016624732 (-150))) /\ peng_gas (f_lit (1 # 2 ^ 80)) 1 = Ok (VNum (S754_finite false 4503599627370496 (-52))).
Proof. exact thin_runs. Qed.
