(** * TransferSpec: what the results of the transfer formulas are compared with *)
From Coq Require Import String List ZArith QArith Qcanon Bool Reals.
From Verif Require Import Py Num UnitsData UnitsStruct Units Spec Solve Formulas Correlations FormulaSpec.
Import ListNotations.
Local Open Scope string_scope.
Local Open Scope list_scope.
Local Open Scope R_scope.

(** [r] is the quantity [x] in the unit written [s], whichever way the unit of [r]
    itself is written: both denote the same in every coherent unit system. *)
Definition denotes (r : val) (x : R) (s : string) : Prop :=
  exists v, constant x s = Ok v /\ forall w, coherent w -> qty w r = qty w v.

(** ** Heat transfer coefficients *)
(** Correlations [f Re Pr L k psi] with their documented Nusselt numbers. *)
Definition nusselt_table : list ((val -> val -> val -> val -> val -> res val) * (R -> R -> R -> R)) :=
  [(htc_open_field_turbulent_avg, fun Re Pr psi => 0.037 * Rpower Re 0.8 * Rpower Pr (1 / 3) * psi - 871 * Rpower Pr (1 / 3) * psi);
   (htc_open_field_turbulent_local, fun Re Pr psi => 0.0296 * Rpower Re 0.8 * Rpower Pr (1 / 3) * psi);
   (htc_pipe_turbulent, fun Re Pr psi => 0.023 * Rpower Re 0.8 * Rpower Pr (1 / 3) * psi);
   (fun Re Pr d k _ => htc_cross_cylinder Re Pr d k, fun Re Pr _ => 0.35 * Rpower Pr 0.3 + 0.56 * Rpower Re 0.52 * Rpower Pr 0.3);
   (fun Re Pr d k _ => htc_cross_sphere Re Pr d k, fun Re Pr _ => 2 + 0.6 * Rpower Re (1 / 2) * Rpower Pr (1 / 3))].
(** Laminar flow along a plate, local and averaged. *)
Definition laminar_table : list ((tables R -> val -> val -> val -> val -> val -> res val) * (R -> R -> R -> R)) :=
  [(htc_open_field_laminar_local, fun Re Pr psi => 0.332 * Rpower Re (1 / 2) * Rpower Pr (1 / 3) * psi);
   (htc_open_field_laminar_avg, fun Re Pr psi => 0.664 * Rpower Re (1 / 2) * Rpower Pr (1 / 3) * psi)].
(** Names of temperature units other than C. *)
Definition degrees : list string := ["K"; "R"; "F"].
Definition viscosities : list string :=
  ["kg/m*s"; "g/m*s"; "lb/ft*s"; "lb/ft*hr"; "g/cm*s"; "Pa*s"; "cP"; "N*s/m^2"; "lbf*s/ft^2"].
(** A Unit of class [c] with value [x], unit [s] and exponent 1. *)
Definition is_simple (c : ucls) (x : R) (s : string) (r : val) : Prop := exists e, r = VUnit (UO c x s e) /\ ev e = qc 1.
(** Constructor calls [Class(x, "unit", exponent)]. *)
Definition powered (c : ucls) (x : R) (s : string) (e : expo) : res val := rmap VUnit (mk_unit c x s e).

(** ** Transient conduction and diffusion *)
(** Density, heat capacity, conductivity, temperature, length, time. *)
Definition slab_texts : list (string * string * string * string * string * string) :=
  flat_map (fun M => flat_map (fun l => flat_map (fun t => flat_map (fun e => map (fun th =>
     (M +++ "/" +++ l +++ "^3", e +++ "/" +++ M +++ "*" +++ th, e +++ "/" +++ t +++ "*" +++ l +++ "*" +++ th, th, l, t)) temperatures) energies) times) lengths) masses
  ++ flat_map (fun M => flat_map (fun l => map (fun th => (M +++ "/" +++ l +++ "^3", "J/" +++ M +++ "*" +++ th, "W/" +++ l +++ "*" +++ th, th, l, "s")) temperatures) lengths) masses.
(** Density, heat of fusion, conductivity, temperature, length, time. *)
Definition melt_texts : list (string * string * string * string * string * string) :=
  flat_map (fun M => flat_map (fun l => flat_map (fun t => flat_map (fun e => map (fun th =>
     (M +++ "/" +++ l +++ "^3", e +++ "/" +++ M, e +++ "/" +++ t +++ "*" +++ l +++ "*" +++ th, th, l, t)) temperatures) energies) times) lengths) masses
  ++ flat_map (fun M => flat_map (fun l => map (fun th => (M +++ "/" +++ l +++ "^3", "J/" +++ M, "W/" +++ l +++ "*" +++ th, th, l, "s")) temperatures) lengths) masses.
(** Partial sums of the series for a slab of half thickness [s] at Fourier number [fo]. *)
Fixpoint slab_series (x s fo : R) (n : nat) : R :=
  match n with
  | O => 0
  | S n => let m := 2 * INR n + 1 in slab_series x s fo n + 1 / m * sin (m * PI * x / (2 * s)) * exp (- (m * (PI / 2)) ^ 2 * fo)
  end.
Fixpoint heat_series (fo : R) (n : nat) : R :=
  match n with
  | O => 0
  | S n => let m := 2 * INR n + 1 in heat_series fo n + 1 / m ^ 2 * (1 - exp (- (m * (PI / 2)) ^ 2 * fo))
  end.
Definition concentrations : list string :=
  ["mol/L"; "mol/m^3"; "mol/ft^3"; "kg/m^3"; "g/m^3"; "g/L"; "kg/L"; "lb/ft^3"].
(** Partial sums of the alternating series for a slab of half thickness [a]; [g] is
    erfc and [w] the square root of 4 D t. *)
Fixpoint diffusion_series (g : R -> R) (a z w : R) (n : nat) : R :=
  match n with
  | O => 0
  | S n => let m := 2 * INR n + 1 in diffusion_series g a z w n + (-1) ^ n * (g ((m * a + z) / w) + g ((m * a - z) / w))
  end.
(** Reflections at the walls next to the source. *)
Definition shape_factor (shape : string) : R :=
  if String.eqb shape "hemisphere" then 2 else if String.eqb shape "cube" then 8 else 1.
Definition areas : list string := ["m^2"; "ft^2"; "in^2"; "yd^2"].
