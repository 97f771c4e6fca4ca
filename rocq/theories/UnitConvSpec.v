(** * UnitConvSpec: what converting a single Unit should mean *)
From Coq Require Import String Ascii List ZArith QArith Qcanon Bool Reals Qreals.
From Verif Require Import Py Num UnitsData UnitsStruct Units Spec.
Import ListNotations.
Local Open Scope string_scope.
Local Open Scope list_scope.
Local Open Scope R_scope.

(** ** Temperature scales: kelvins of a reading *)
Inductive tscale := TK | TC | TF | TR.
Definition tname (s : tscale) : string := match s with TK => "K" | TC => "C" | TF => "F" | TR => "R" end.
Definition kelvin (s : tscale) (x : R) : R :=
  match s with
  | TK => x
  | TC => x + 273.15
  | TF => (x + 459.67) * 5 / 9
  | TR => x * 5 / 9
  end.

(** ** Names per class

    Converting between these names and back is exact. *)
Definition round_names (c : ucls) : list string :=
  match c with
  | Pressure => ["Pa"; "uPa"; "mPa"; "dPa"; "kPa"; "MPa"; "bar"; "atm"; "mmHg"; "psi"]
  | Length => ["m"; "yd"; "um"; "mm"; "cm"; "dm"; "km"]
  | Time => ["s"; "min"; "hr"; "day"]
  | Energy => ["J"; "uJ"; "mJ"; "cJ"; "dJ"; "kJ"; "MJ"; "BTU"]
  | Mass => ["kg"; "ug"; "mg"; "dg"; "g"; "Mg"]
  | Force => ["N"; "uN"; "mN"; "dN"; "kN"; "MN"; "lbf"]
  | _ => []
  end.
(** Those with rounded, not mutually inverse constants in addition. *)
Definition near_names (c : ucls) : list string :=
  round_names c ++ match c with Length => ["ft"; "in"] | Mass => ["lb"] | _ => [] end.
(** Names whose factor is the SI one: all but MPa and psi ... *)
Definition si_names (c : ucls) : list string :=
  match c with
  | Pressure => ["Pa"; "uPa"; "mPa"; "dPa"; "kPa"; "bar"; "atm"; "mmHg"]
  | _ => round_names c
  end.
(** ... psi, ft, in and lb only up to rounding. *)
Definition near_si_names (c : ucls) : list string :=
  match c with
  | Pressure => "psi" :: si_names c
  | _ => near_names c
  end.
(** Equality up to a relative error of 1e-5. *)
Definition close (x y : R) : Prop := Rabs (x - y) <= / 100000 * Rabs y.

(** A Unit of exponent 1. *)
Definition simple (u : unit_obj R) (c : ucls) (v : R) (n : string) : Prop :=
  uc u = c /\ uv u = v /\ un u = n /\ ev (ue u) = qc 1.

(** ** Registered names that cannot be converted to the standard unit of their class *)
Definition missing_names : list string :=
  ["Mm"; "cg"; "cPa"; "cN"; "uL"; "mL"; "cL"; "dL"; "kL"; "ML";
   "um^3"; "mm^3"; "cm^3"; "dm^3"; "km^3"; "Mm^3"; "ft^3"; "in^3";
   "um^2"; "mm^2"; "cm^2"; "dm^2"; "km^2"; "Mm^2"; "ft^2"; "in^2"].
