(** * FormulaSpec: hypotheses about the arguments of formulas *)
From Coq Require Import String List ZArith QArith Qcanon Bool Reals.
From Verif Require Import Py Num UnitsData UnitsStruct Units Spec Solve Formulas.
Import ListNotations.
Local Open Scope string_scope.
Local Open Scope list_scope.
Local Open Scope R_scope.

(** Numbers, and objects whose units carry no SI prefix (kg counts as a unit of
    its own). *)
Definition plain_val (v : pyval R) : Prop :=
  match v with
  | VNum _ => True
  | VUnit u => unprefixed (un u) /\ built u
  | VMulti m => unp_multi m
  | VNone | VObj => False
  end.
(** Operands whose product loses no exponent (C14, C16). *)
Definition no_loss (a b : pyval R) : Prop :=
  match a, b with
  | VUnit u, VUnit v => (uc u = uc v /\ un u = un v) \/ (ev (ue u) = qc 1 /\ ev (ue v) = qc 1)
  | VUnit u, VNum _ | VNum _, VUnit u => ev (ue u) = qc 1
  | _, _ => True
  end.
(** What a value is: a number, a Unit or a MultiUnit. *)
Inductive vkind := KNum | KUnit | KMulti | KOther.
Definition kind (v : pyval R) : vkind :=
  match v with VNum _ => KNum | VUnit _ => KUnit | VMulti _ => KMulti | _ => KOther end.

(** Constructor calls [Class(x, "unit")]. *)
Definition multi (c : string) (x : R) (s : string) : res (pyval R) := rmap VMulti (mk_multi (MSub c) x s).
Definition simple (c : ucls) (x : R) (s : string) : res (pyval R) := rmap VUnit (mk_unit c x s (eint 1)).

(** The same object apart from its number. *)
Definition same_unit (a b : pyval R) : Prop :=
  match a, b with
  | VNum _, VNum _ => True
  | VUnit u, VUnit v => uc u = uc v /\ un u = un v /\ ue u = ue v
  | VMulti m, VMulti n => mc m = mc n /\ mtop m = mtop n /\ mbot m = mbot n
  | _, _ => False
  end.

(** Unit names without prefix that the library knows. *)
Definition lengths : list string := ["m"; "ft"; "in"; "yd"].
Definition masses : list string := ["kg"; "g"; "lb"].
Definition times : list string := ["s"; "min"; "hr"].
Definition temperatures : list string := ["K"; "C"; "R"; "F"].
Definition energies : list string := ["J"; "BTU"].
(** Powers, as written before the rest of a denominator. *)
Definition powers : list string :=
  ["W/"; "J/s*"; "J/min*"; "J/hr*"; "BTU/s*"; "BTU/min*"; "BTU/hr*"; "kg*m^2/s^3*"].

(** ** Consistent choices of units *)
(** Diffusing substances, in moles or by mass. *)
Definition substances : list string := "mol" :: masses.
(** Density, velocity, length, viscosity. *)
Definition re_texts : list (string * string * string * string) :=
  flat_map (fun M => flat_map (fun l => map (fun t => (M +++ "/" +++ l +++ "^3", l +++ "/" +++ t, l, M +++ "/" +++ l +++ "*" +++ t)) times) lengths) masses
  ++ [("kg/m^3", "m/s", "m", "Pa*s")].
(** Heat transfer coefficient, length, conductivity. *)
Definition bi_texts : list (string * string * string) :=
  flat_map (fun p => flat_map (fun l => map (fun th => (p +++ l +++ "^2*" +++ th, l, p +++ l +++ "*" +++ th)) temperatures) lengths) powers.
(** Viscosity, heat capacity, conductivity. *)
Definition pr_texts : list (string * string * string) :=
  flat_map (fun M => flat_map (fun l => flat_map (fun t => flat_map (fun e => map (fun th =>
     (M +++ "/" +++ l +++ "*" +++ t, e +++ "/" +++ M +++ "*" +++ th, e +++ "/" +++ t +++ "*" +++ l +++ "*" +++ th)) temperatures) energies) times) lengths) masses
  ++ flat_map (fun th => flat_map (fun mu => map (fun k => (mu, "J/kg*" +++ th, k +++ th)) ["W/m*"; "J/s*m*"; "kg*m/s^3*"]) ["kg/m*s"; "Pa*s"]) temperatures.
(** Viscosity, density, diffusion coefficient. *)
Definition sc_texts : list (string * string * string) :=
  flat_map (fun M => flat_map (fun l => map (fun t => (M +++ "/" +++ l +++ "*" +++ t, M +++ "/" +++ l +++ "^3", l +++ "^2/" +++ t)) times) lengths) masses
  ++ [("Pa*s", "kg/m^3", "m^2/s")].
(** h, A, rho, cP, V, time, temperature. *)
Definition lump_texts : list (string * string * string * string * string * string * string) :=
  flat_map (fun M => flat_map (fun l => flat_map (fun t => flat_map (fun e => map (fun th =>
     (e +++ "/" +++ t +++ "*" +++ l +++ "^2*" +++ th, l +++ "^2", M +++ "/" +++ l +++ "^3", e +++ "/" +++ M +++ "*" +++ th, l +++ "^3", t, th)) temperatures) energies) times) lengths) masses
  ++ flat_map (fun M => flat_map (fun l => map (fun th => ("W/" +++ l +++ "^2*" +++ th, l +++ "^2", M +++ "/" +++ l +++ "^3", "J/" +++ M +++ "*" +++ th, l +++ "^3", "s", th)) temperatures) lengths) masses.
Definition pressures : list string := ["Pa"; "psi"; "atm"; "bar"].
(** Mass flow, gas constant, volume flow, pressure, molecular weight, volume. *)
Definition vent_texts : list (string * string * string * string * string * string) :=
  flat_map (fun M => flat_map (fun t => map (fun q =>
     (M +++ "/" +++ t, fst (fst q), snd q +++ "/" +++ t, snd (fst q), M +++ "/mol", snd q))
   [("m^3*Pa/mol*K", "Pa", "m^3"); ("L*atm/mol*K", "atm", "L"); ("m^3*atm/mol*K", "atm", "m^3")]) times) masses.
(** Reaction orders with the units of the rate constant. *)
Definition orders : list (expo * string) := [(eint 0, "mol/L*s"); (eint 1, "s^-1"); (eflt (qc 0), "mol/L*s"); (eflt (qc 1), "s^-1")].
(** Rate constant, activation energy, gas constant, temperature. *)
Definition arr_texts : list (string * string * string * string) :=
  flat_map (fun s => flat_map (fun e => map (fun th => (s, e +++ "/mol", e +++ "/mol*" +++ th, th)) ["K"; "R"]) energies) ["mol/L*s"; "s^-1"].
(** How a gas constant is asked for, its size in SI units, and the size of one unit in
    the last printed place. *)
Definition gas_table : list (res val * R * R) :=
  [(get_gas_constant "K" "m^3" "Pa" true, 8.314, 0.001);
   (get_gas_constant "K" "m^3" "Pa" false, 8.314, 0.001);
   (get_gas_constant "K" "L" "atm" false, 0.08205 * 101.325, 0.00001 * 101.325);
   (get_gas_constant "K" "m^3" "atm" false, 8.205746 / 10 ^ 5 * 101325, 0.000001 / 10 ^ 5 * 101325)].
