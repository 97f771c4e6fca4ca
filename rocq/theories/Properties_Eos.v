(** * Properties of the cubic equations of state (C45, C60, C61, C104)

    Laws, "compressibility" and "settles" are those of EosSpec, "finds", "settles_least" and "settles_greatest" of EosFoundSpec. *)
From Coq Require Import String List ZArith QArith Bool Reals Lra.
From Verif Require Import Py Num UnitsData UnitsStruct Units Eos EosSpec EosFoundSpec EosFacts EosExact EosLiquid EosMonotone.
Local Open Scope string_scope.
Local Open Scope R_scope.

(** ** C45

    Full statement: for all four functions and for temperatures in any unit.  Van
    der Waals, Peng-Robinson and Celsius temperatures are refuted. *)
Theorem C45_rk_partial : forall tn pn T P Tc Pc st z, 0 < T -> 0 < P -> 0 < Tc -> 0 < Pc ->
  settles (rendlich_kwong (temp tn T) (pres pn P) (temp tn Tc) (pres pn Pc) st) z -> compressibility redlich_kwong_law T P Tc Pc z.
Proof. exact rk_settles. Qed.
Print Assumptions C45_rk_partial.
Theorem C45_rk_fixed_partial : forall tn pn T P Tc Pc st n z, 0 < T -> 0 < P -> 0 < Tc -> 0 < Pc -> (0 <= n)%Z ->
  let f := rendlich_kwong (temp tn T) (pres pn P) (temp tn Tc) (pres pn Pc) st in
  f n = Ok (VNum z) -> f (n + 1)%Z = Ok (VNum z) -> compressibility redlich_kwong_law T P Tc Pc z.
Proof. exact rk_stationary. Qed.
Print Assumptions C45_rk_fixed_partial.
Theorem C45_srk_partial : forall tn pn T P Tc Pc st w z, 0 < T -> 0 < P -> 0 < Tc -> 0 < Pc ->
  1 + (0.480 + 1.574 * w - 0.176 * w ^ 2) * (1 - sqrt (T / Tc)) <> 0 ->
  settles (soave_rendlich_kwong (temp tn T) (pres pn P) (temp tn Tc) (pres pn Pc) st (VNum w)) z -> compressibility (soave_law w) T P Tc Pc z.
Proof. exact srk_settles. Qed.
Print Assumptions C45_srk_partial.
Theorem C45_srk_fixed_partial : forall tn pn T P Tc Pc st w n z, 0 < T -> 0 < P -> 0 < Tc -> 0 < Pc -> (0 <= n)%Z ->
  1 + (0.480 + 1.574 * w - 0.176 * w ^ 2) * (1 - sqrt (T / Tc)) <> 0 ->
  let f := soave_rendlich_kwong (temp tn T) (pres pn P) (temp tn Tc) (pres pn Pc) st (VNum w) in
  f n = Ok (VNum z) -> f (n + 1)%Z = Ok (VNum z) -> compressibility (soave_law w) T P Tc Pc z.
Proof. exact srk_stationary. Qed.
Print Assumptions C45_srk_fixed_partial.
(** Van der Waals: the code divides by z (z + beta) where the law has z^2. *)
Theorem C45_vdw_refuted : exists T P Tc Pc z, 0 < T /\ 0 < P /\ 0 < Tc /\ 0 < Pc /\
  settles (van_der_waals (temp "K" T) (pres "kPa" P) (temp "K" Tc) (pres "kPa" Pc) "vapor") z /\ ~ compressibility van_der_waals_law T P Tc Pc z.
Proof. exact vdw_refuted. Qed.
Print Assumptions C45_vdw_refuted.
Theorem C45_vdw_never : forall tn pn T P Tc Pc st z, 0 < T -> 0 < P -> 0 < Tc -> 0 < Pc ->
  settles (van_der_waals (temp tn T) (pres pn P) (temp tn Tc) (pres pn Pc) st) z -> ~ compressibility van_der_waals_law T P Tc Pc z.
Proof. exact vdw_wrong. Qed.
Print Assumptions C45_vdw_never.
Theorem C45_vdw_actual : forall tn pn T P Tc Pc st z, 0 < T -> 0 < P -> 0 < Tc -> 0 < Pc ->
  settles (van_der_waals (temp tn T) (pres pn P) (temp tn Tc) (pres pn Pc) st) z -> compressibility (kwong_form (1 / 8) (27 / 64)) T P Tc Pc z.
Proof. exact vdw_actual. Qed.
Print Assumptions C45_vdw_actual.
(** Peng-Robinson: after the first step the code iterates Redlich and Kwong's map. *)
Theorem C45_pr_refuted : exists T P Tc Pc w z, 0 < T /\ 0 < P /\ 0 < Tc /\ 0 < Pc /\
  settles (peng_robinson (temp "K" T) (pres "kPa" P) (temp "K" Tc) (pres "kPa" Pc) "vapor" (VNum w)) z /\ ~ compressibility (peng_robinson_law w) T P Tc Pc z.
Proof. exact pr_refuted. Qed.
Print Assumptions C45_pr_refuted.
Theorem C45_pr_never : forall tn pn T P Tc Pc st w z, 0 < T -> 0 < P -> 0 < Tc -> 0 < Pc ->
  1 + (0.37464 + 1.54226 * w - 0.26992 * w ^ 2) * (1 - sqrt (T / Tc)) <> 0 ->
  settles (peng_robinson (temp tn T) (pres pn P) (temp tn Tc) (pres pn Pc) st (VNum w)) z -> ~ compressibility (peng_robinson_law w) T P Tc Pc z.
Proof. exact pr_wrong. Qed.
Print Assumptions C45_pr_never.
Theorem C45_pr_actual : forall tn pn T P Tc Pc st w z, 0 < T -> 0 < P -> 0 < Tc -> 0 < Pc ->
  1 + (0.37464 + 1.54226 * w - 0.26992 * w ^ 2) * (1 - sqrt (T / Tc)) <> 0 ->
  settles (peng_robinson (temp tn T) (pres pn P) (temp tn Tc) (pres pn Pc) st (VNum w)) z ->
  compressibility (kwong_form 0.07780 (0.45724 * (1 + (0.37464 + 1.54226 * w - 0.26992 * w ^ 2) * (1 - sqrt (T / Tc))) ^ 2)) T P Tc Pc z.
Proof. exact pr_actual. Qed.
Print Assumptions C45_pr_actual.
(** A state other than the two is refused. *)
Theorem C45_other_state : forall tn pn T P Tc Pc st w n, 0 < T -> 0 < Tc -> 0 < Pc -> st <> "vapor" -> st <> "liquid" ->
  rendlich_kwong (temp tn T) (pres pn P) (temp tn Tc) (pres pn Pc) st n = Raise EUnboundLocalError /\
  van_der_waals (temp tn T) (pres pn P) (temp tn Tc) (pres pn Pc) st n = Raise EUnboundLocalError /\
  soave_rendlich_kwong (temp tn T) (pres pn P) (temp tn Tc) (pres pn Pc) st (VNum w) n = Raise EUnboundLocalError /\
  peng_robinson (temp tn T) (pres pn P) (temp tn Tc) (pres pn Pc) st (VNum w) n = Raise EUnboundLocalError.
Proof. exact other_state. Qed.
Print Assumptions C45_other_state.
Theorem C45_celsius_refuted : exists T P Tc Pc z, 0 < T /\ 0 < P /\ 0 < Tc /\ 0 < Pc /\
  settles (rendlich_kwong (temp "C" T) (pres "kPa" P) (temp "C" Tc) (pres "kPa" Pc) "vapor") z /\
  ~ compressibility redlich_kwong_law (T + 273.15) P (Tc + 273.15) Pc z.
Proof. exact rk_celsius. Qed.
Print Assumptions C45_celsius_refuted.
Example C45_case : exists z, settles (van_der_waals (temp "K" 400) (pres "kPa" 100) (temp "K" 400) (pres "kPa" 400) "vapor") z.
Proof. exact vdw_settled. Qed.
Example C45_pr_case : exists z, settles (peng_robinson (temp "K" 400) (pres "kPa" 100) (temp "K" 400) (pres "kPa" 1600) "vapor" (VNum 0.2)) z.
Proof. exact pr_settled. Qed.
Example C45_docstrings :
  five_places (rendlich_kwong (qtemp (350 # 1)) (qpres (350 # 1)) (qtemp (350 # 1)) (qpres (350 # 1)) "vapor" 6) = Some 47750%Z /\
  five_places (van_der_waals (qtemp (350 # 1)) (qpres (350 # 1)) (qtemp (350 # 1)) (qpres (350 # 1)) "vapor" 6) = Some 70816%Z /\
  five_places (soave_rendlich_kwong (qtemp (350 # 1)) (qpres (350 # 1)) (qtemp (350 # 1)) (qpres (350 # 1)) "vapor" (VNum (224 # 1000)) 6) = Some 47750%Z.
Proof. exact docstrings. Qed.

(** ** C60 *)
Theorem C60_rk_gas : forall tn pn T P Tc Pc, 0 < T -> 0 < P -> 0 < Tc -> 0 < Pc ->
  let k := 0.42748 * (P / Pc) / ((T / Tc) ^ 2 * sqrt (T / Tc)) in
  0.08664 * (P / Pc) <= 1 / 2 * (T / Tc) -> k <= 1 / 5 ->
  exists z, 1 / 2 <= z /\ compressibility redlich_kwong_law T P Tc Pc z /\ (forall z', compressibility redlich_kwong_law T P Tc Pc z' -> z' <= z) /\
    forall n, (0 <= n)%Z -> exists x, rendlich_kwong (temp tn T) (pres pn P) (temp tn Tc) (pres pn Pc) "vapor" n = Ok (VNum x) /\
      Rabs (x - z) <= (4 * k) ^ (S (Z.to_nat n)) / 2.
Proof. exact rk_gas. Qed.
Print Assumptions C60_rk_gas.
Theorem C60_srk_gas : forall tn pn T P Tc Pc w, 0 < T -> 0 < P -> 0 < Tc -> 0 < Pc ->
  let m := 0.480 + 1.574 * w - 0.176 * w ^ 2 in let al := (1 + m * (1 - sqrt (T / Tc))) ^ 2 in
  let k := 0.42748 * al * (P / Pc) / (T / Tc) ^ 2 in
  0.08664 * (P / Pc) <= 1 / 2 * (T / Tc) -> 0 < k <= 1 / 5 ->
  exists z, 1 / 2 <= z /\ compressibility (soave_law w) T P Tc Pc z /\ (forall z', compressibility (soave_law w) T P Tc Pc z' -> z' <= z) /\
    forall n, (0 <= n)%Z -> exists x, soave_rendlich_kwong (temp tn T) (pres pn P) (temp tn Tc) (pres pn Pc) "vapor" (VNum w) n = Ok (VNum x) /\
      Rabs (x - z) <= (4 * k) ^ (S (Z.to_nat n)) / 2.
Proof. exact srk_gas. Qed.
Print Assumptions C60_srk_gas.
(** Water at its critical temperature and 1 atm. *)
Example C60_case : 0.08664 * (101.325 / 22064) <= 1 / 2 * (647 / 647) /\ 0.42748 * (101.325 / 22064) / ((647 / 647) ^ 2 * sqrt (647 / 647)) <= 1 / 5.
Proof. replace (647 / 647) with 1 by field. rewrite sqrt_1. split; lra. Qed.

(** ** C61 *)
Theorem C61_mixed : forall tn tn' pn pn' T P Tc Pc st n, mixed tn tn' pn pn' ->
  refused (rendlich_kwong (temp tn T) (pres pn P) (temp tn' Tc) (pres pn' Pc) st n) /\
  refused (van_der_waals (temp tn T) (pres pn P) (temp tn' Tc) (pres pn' Pc) st n) /\
  (forall w, refused (soave_rendlich_kwong (temp tn T) (pres pn P) (temp tn' Tc) (pres pn' Pc) st w n)) /\
  (forall w, refused (peng_robinson (temp tn T) (pres pn P) (temp tn' Tc) (pres pn' Pc) st w n)).
Proof. exact mixed_refused. Qed.
Print Assumptions C61_mixed.
Example C61_case : mixed "K" "C" "kPa" "kPa" /\ mixed "K" "K" "kPa" "Pa".
Proof. split; [left|right]; split; congruence. Qed.

(** ** C104

    Van der Waals and Peng-Robinson find the roots of the equations they iterate, which
    are not theirs (C45). *)
Theorem C104_rk_liquid : forall tn pn T P Tc Pc, 0 < T -> 0 < P -> 0 < Tc -> 0 < Pc ->
  forall z, compressibility redlich_kwong_law T P Tc Pc z -> 0 < z <= 2 / 3 ->
  settles_least redlich_kwong_law T P Tc Pc (rendlich_kwong (temp tn T) (pres pn P) (temp tn Tc) (pres pn Pc) "liquid").
Proof. exact rk_low. Qed.
Print Assumptions C104_rk_liquid.
Theorem C104_rk_vapor : forall tn pn T P Tc Pc, 0 < T -> 0 < P -> 0 < Tc -> 0 < Pc ->
  forall z, let b := 0.08664 * (P / Pc / (T / Tc)) in b <= 2 / 5 -> compressibility redlich_kwong_law T P Tc Pc z -> (1 + sqrt 2) * b <= z ->
  settles_greatest redlich_kwong_law T P Tc Pc (rendlich_kwong (temp tn T) (pres pn P) (temp tn Tc) (pres pn Pc) "vapor").
Proof. exact rk_high. Qed.
Print Assumptions C104_rk_vapor.
Theorem C104_srk_liquid : forall tn pn T P Tc Pc, 0 < T -> 0 < P -> 0 < Tc -> 0 < Pc ->
  forall w z, 1 + (0.480 + 1.574 * w - 0.176 * w ^ 2) * (1 - sqrt (T / Tc)) <> 0 -> compressibility (soave_law w) T P Tc Pc z -> 0 < z <= 2 / 3 ->
  settles_least (soave_law w) T P Tc Pc (soave_rendlich_kwong (temp tn T) (pres pn P) (temp tn Tc) (pres pn Pc) "liquid" (VNum w)).
Proof. exact srk_low. Qed.
Print Assumptions C104_srk_liquid.
Theorem C104_srk_vapor : forall tn pn T P Tc Pc, 0 < T -> 0 < P -> 0 < Tc -> 0 < Pc ->
  forall w z, 1 + (0.480 + 1.574 * w - 0.176 * w ^ 2) * (1 - sqrt (T / Tc)) <> 0 ->
  let b := 0.08664 * (P / Pc / (T / Tc)) in b <= 2 / 5 -> compressibility (soave_law w) T P Tc Pc z -> (1 + sqrt 2) * b <= z ->
  settles_greatest (soave_law w) T P Tc Pc (soave_rendlich_kwong (temp tn T) (pres pn P) (temp tn Tc) (pres pn Pc) "vapor" (VNum w)).
Proof. exact srk_high. Qed.
Print Assumptions C104_srk_vapor.
Theorem C104_vdw_liquid : forall tn pn T P Tc Pc, 0 < T -> 0 < P -> 0 < Tc -> 0 < Pc ->
  forall z, compressibility (kwong_form (1 / 8) (27 / 64)) T P Tc Pc z -> 0 < z <= 2 / 3 ->
  settles_least (kwong_form (1 / 8) (27 / 64)) T P Tc Pc (van_der_waals (temp tn T) (pres pn P) (temp tn Tc) (pres pn Pc) "liquid").
Proof. exact vdw_low. Qed.
Print Assumptions C104_vdw_liquid.
Theorem C104_vdw_vapor : forall tn pn T P Tc Pc, 0 < T -> 0 < P -> 0 < Tc -> 0 < Pc ->
  forall z, let b := 1 / 8 * (P / Pc / (T / Tc)) in b <= 2 / 5 -> compressibility (kwong_form (1 / 8) (27 / 64)) T P Tc Pc z -> (1 + sqrt 2) * b <= z ->
  settles_greatest (kwong_form (1 / 8) (27 / 64)) T P Tc Pc (van_der_waals (temp tn T) (pres pn P) (temp tn Tc) (pres pn Pc) "vapor").
Proof. exact vdw_high. Qed.
Print Assumptions C104_vdw_vapor.
Theorem C104_pr_liquid : forall tn pn T P Tc Pc, 0 < T -> 0 < P -> 0 < Tc -> 0 < Pc ->
  forall w z, let s := 1 + (0.37464 + 1.54226 * w - 0.26992 * w ^ 2) * (1 - sqrt (T / Tc)) in s <> 0 ->
  compressibility (kwong_form 0.07780 (0.45724 * s ^ 2)) T P Tc Pc z -> 0 < z <= 2 / 3 ->
  settles_least (kwong_form 0.07780 (0.45724 * s ^ 2)) T P Tc Pc (peng_robinson (temp tn T) (pres pn P) (temp tn Tc) (pres pn Pc) "liquid" (VNum w)).
Proof. exact pr_low. Qed.
Print Assumptions C104_pr_liquid.
(** A fluid with critical point 400 K and 40 bar, at 256 K and 1 bar and at 400 K and 2 bar. *)
Example C104_low_case : exists z, compressibility redlich_kwong_law 256 1 400 40 z /\ 0 < z <= 2 / 3.
Proof. exact low_case. Qed.
Example C104_high_case : exists z, compressibility redlich_kwong_law 400 2 400 40 z /\ (1 + sqrt 2) * (0.08664 * (2 / 40 / (400 / 400))) <= z.
Proof. exact high_case. Qed.
(** How fast, where the maps contract. *)
Theorem C104_rk_liquid_rate : forall tn pn T P Tc Pc, 0 < T -> 0 < P -> 0 < Tc -> 0 < Pc ->
  let q := 0.42748 / sqrt (T / Tc) / (0.08664 * (T / Tc)) in let b := 0.08664 * (P / Pc / (T / Tc)) in
  6 <= q -> b <= 8 / 11 ->
  finds_least redlich_kwong_law T P Tc Pc (rendlich_kwong (temp tn T) (pres pn P) (temp tn Tc) (pres pn Pc) "liquid") b (5 / q).
Proof. exact rk_liquid. Qed.
Print Assumptions C104_rk_liquid_rate.
Theorem C104_srk_liquid_rate : forall tn pn T P Tc Pc, 0 < T -> 0 < P -> 0 < Tc -> 0 < Pc ->
  forall w, let q := 0.42748 * (1 + (0.480 + 1.574 * w - 0.176 * w ^ 2) * (1 - sqrt (T / Tc))) ^ 2 / (0.08664 * (T / Tc)) in
  let b := 0.08664 * (P / Pc / (T / Tc)) in 6 <= q -> b <= 8 / 11 ->
  finds_least (soave_law w) T P Tc Pc (soave_rendlich_kwong (temp tn T) (pres pn P) (temp tn Tc) (pres pn Pc) "liquid" (VNum w)) b (5 / q).
Proof. exact srk_liquid. Qed.
Print Assumptions C104_srk_liquid_rate.
Theorem C104_vdw_liquid_rate : forall tn pn T P Tc Pc, 0 < T -> 0 < P -> 0 < Tc -> 0 < Pc ->
  let q := 27 / 64 / (1 / 8 * (T / Tc)) in let b := 1 / 8 * (P / Pc / (T / Tc)) in 6 <= q -> b <= 8 / 11 ->
  finds_least (kwong_form (1 / 8) (27 / 64)) T P Tc Pc (van_der_waals (temp tn T) (pres pn P) (temp tn Tc) (pres pn Pc) "liquid") b (5 / q).
Proof. exact vdw_liquid. Qed.
Print Assumptions C104_vdw_liquid_rate.
Theorem C104_pr_liquid_rate : forall tn pn T P Tc Pc, 0 < T -> 0 < P -> 0 < Tc -> 0 < Pc ->
  forall w, let al := (1 + (0.37464 + 1.54226 * w - 0.26992 * w ^ 2) * (1 - sqrt (T / Tc))) ^ 2 in
  let q := 0.45724 * al / (0.07780 * (T / Tc)) in let b := 0.07780 * (P / Pc / (T / Tc)) in 6 <= q -> b <= 8 / 11 ->
  finds_least (kwong_form 0.07780 (0.45724 * al)) T P Tc Pc (peng_robinson (temp tn T) (pres pn P) (temp tn Tc) (pres pn Pc) "liquid" (VNum w)) b (5 / q).
Proof. exact pr_liquid. Qed.
Print Assumptions C104_pr_liquid_rate.
Theorem C104_vdw_vapor_rate : forall tn pn T P Tc Pc, 0 < T -> 0 < P -> 0 < Tc -> 0 < Pc ->
  let k := 27 / 64 * (P / Pc) / (T / Tc) ^ 2 in 1 / 8 * (P / Pc) <= 1 / 2 * (T / Tc) -> k <= 1 / 5 ->
  finds_greatest (kwong_form (1 / 8) (27 / 64)) T P Tc Pc (van_der_waals (temp tn T) (pres pn P) (temp tn Tc) (pres pn Pc) "vapor") (fun n => (4 * k) ^ S n / 2).
Proof. exact vdw_gas. Qed.
Print Assumptions C104_vdw_vapor_rate.
Theorem C104_pr_vapor_rate : forall tn pn T P Tc Pc, 0 < T -> 0 < P -> 0 < Tc -> 0 < Pc ->
  forall w, let al := (1 + (0.37464 + 1.54226 * w - 0.26992 * w ^ 2) * (1 - sqrt (T / Tc))) ^ 2 in
  let q := 0.45724 * al / (0.07780 * (T / Tc)) in let k := 0.45724 * al * (P / Pc) / (T / Tc) ^ 2 in
  0.07780 * (P / Pc) <= 1 / 2 * (T / Tc) -> 0 < k <= 1 / 5 -> q * k <= 1 / 2 ->
  finds_greatest (kwong_form 0.07780 (0.45724 * al)) T P Tc Pc
    (fun n => peng_robinson (temp tn T) (pres pn P) (temp tn Tc) (pres pn Pc) "vapor" (VNum w) (n + 1)) (fun n => (4 * k) ^ n).
Proof. exact pr_gas. Qed.
Print Assumptions C104_pr_vapor_rate.
(** A fluid with critical point 400 K and 40 bar: its liquid at 256 K (van der Waals: 196 K) and 1 bar, its vapor at 400 K and 2 bar. *)
Example C104_case :
  (6 <= 0.42748 / sqrt (256 / 400) / (0.08664 * (256 / 400)) /\ 0.08664 * (1 / 40 / (256 / 400)) <= 8 / 11) /\
  6 <= 0.42748 * (1 + (0.480 + 1.574 * 0.2 - 0.176 * 0.2 ^ 2) * (1 - sqrt (256 / 400))) ^ 2 / (0.08664 * (256 / 400)) /\
  (6 <= 27 / 64 / (1 / 8 * (196 / 400)) /\ 1 / 8 * (1 / 40 / (196 / 400)) <= 8 / 11) /\
  6 <= 0.45724 * (1 + (0.37464 + 1.54226 * 0.2 - 0.26992 * 0.2 ^ 2) * (1 - sqrt (256 / 400))) ^ 2 / (0.07780 * (256 / 400)).
Proof.
  replace (sqrt (256 / 400)) with (4 / 5) by (symmetry; apply sqrt_lem_1; lra). repeat split; lra.
Qed.
Example C104_gas_case : let q := 0.45724 * 1 / (0.07780 * (400 / 400)) in let k := 0.45724 * 1 * (2 / 40) / (400 / 400) ^ 2 in
  0.07780 * (2 / 40) <= 1 / 2 * (400 / 400) /\ 0 < k <= 1 / 5 /\ q * k <= 1 / 2 /\ 27 / 64 * (2 / 40) / (400 / 400) ^ 2 <= 1 / 5.
Proof. cbv zeta. repeat split; lra. Qed.
