(** * EosSpec: the equations of state as textbooks write them

    Pressure as a function of temperature and molar volume.  [Rg] is the gas
    constant, [Tc] and [Pc] the critical constants, [w] the acentric factor;
    temperatures are absolute. *)
From Coq Require Import String ZArith QArith Reals.
From Verif Require Import Py Num UnitsData UnitsStruct Units.
Local Open Scope R_scope.

(** [eos Rg Tc Pc T V P]: the volume V has pressure P; no denominator is zero. *)
(** P = R T / (V - b) - a / (T^(1/2) V (V + b)). *)
Definition redlich_kwong_law (Rg Tc Pc T V P : R) : Prop :=
  let a := 0.42748 * Rg ^ 2 * (Tc ^ 2 * sqrt Tc) / Pc in
  let b := 0.08664 * Rg * Tc / Pc in
  V - b <> 0 /\ V * (V + b) <> 0 /\ P = Rg * T / (V - b) - a / (sqrt T * (V * (V + b))).
(** P = R T / (V - b) - a / V^2. *)
Definition van_der_waals_law (Rg Tc Pc T V P : R) : Prop :=
  let a := 27 / 64 * Rg ^ 2 * Tc ^ 2 / Pc in
  let b := 1 / 8 * Rg * Tc / Pc in
  V - b <> 0 /\ V ^ 2 <> 0 /\ P = Rg * T / (V - b) - a / V ^ 2.
(** P = R T / (V - b) - a alpha / (V (V + b)). *)
Definition soave_law (w Rg Tc Pc T V P : R) : Prop :=
  let a := 0.42748 * Rg ^ 2 * Tc ^ 2 / Pc in
  let b := 0.08664 * Rg * Tc / Pc in
  let m := 0.480 + 1.574 * w - 0.176 * w ^ 2 in
  let alpha := (1 + m * (1 - sqrt (T / Tc))) ^ 2 in
  V - b <> 0 /\ V * (V + b) <> 0 /\ P = Rg * T / (V - b) - a * alpha / (V * (V + b)).
(** P = R T / (V - b) - a alpha / (V (V + b) + b (V - b)). *)
Definition peng_robinson_law (w Rg Tc Pc T V P : R) : Prop :=
  let a := 0.45724 * Rg ^ 2 * Tc ^ 2 / Pc in
  let b := 0.07780 * Rg * Tc / Pc in
  let m := 0.37464 + 1.54226 * w - 0.26992 * w ^ 2 in
  let alpha := (1 + m * (1 - sqrt (T / Tc))) ^ 2 in
  V - b <> 0 /\ V * (V + b) + b * (V - b) <> 0 /\ P = Rg * T / (V - b) - a * alpha / (V * (V + b) + b * (V - b)).

(** P = R T / (V - b) - a / (V (V + b)), with b = om R Tc / Pc and a = psi R^2 Tc^2 / Pc:
    Redlich and Kwong's form with constants of another equation. *)
Definition kwong_form (om psi Rg Tc Pc T V P : R) : Prop :=
  let a := psi * Rg ^ 2 * Tc ^ 2 / Pc in
  let b := om * Rg * Tc / Pc in
  V - b <> 0 /\ V * (V + b) <> 0 /\ P = Rg * T / (V - b) - a / (V * (V + b)).

(** [z] is a compressibility factor P V / (R T) at [T], [P]: the volume z R T / P
    obeys the law, whatever the value of R (that is, its units). *)
Definition compressibility (law : R -> R -> R -> R -> R -> R -> Prop) (T P Tc Pc z : R) : Prop :=
  forall Rg, 0 < Rg -> law Rg Tc Pc T (z * Rg * T / P) P.

(** Calls settle on [z]: they answer numbers as close to [z] as wanted, from some
    number of iterations on. *)
Definition settles (f : Z -> res (pyval R)) (z : R) : Prop :=
  forall eps, 0 < eps -> exists N, forall n, (N <= n)%Z -> exists x, f n = Ok (VNum x) /\ Rabs (x - z) < eps.

(** Objects [Temperature(x, n)] and [Pressure(x, n)]. *)
Definition temp (n : string) (x : R) : pyval R := VUnit (UO Temperature x n (eint 1)).
Definition pres (n : string) (x : R) : pyval R := VUnit (UO Pressure x n (eint 1)).

(** The call raises. *)
Definition refused (r : res (pyval R)) : Prop := exists e, r = Raise e.
(** The units of the temperatures differ and those of the pressures agree, or the other way. *)
Definition mixed (tn tn' pn pn' : string) : Prop := (tn <> tn' /\ pn = pn') \/ (tn = tn' /\ pn <> pn').
