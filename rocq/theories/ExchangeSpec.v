(** * ExchangeSpec: documented values of the diffusion, phase change and shell formulas *)
From Coq Require Import String List ZArith QArith Bool Reals.
From Verif Require Import Py Num UnitsData UnitsStruct Units Solve Formulas Correlations FormulaSpec TransferSpec.
Import ListNotations.
Local Open Scope string_scope.
Local Open Scope list_scope.
Local Open Scope R_scope.

(** ** Diffusion coefficients *)
(** Nernst: from the charges and limiting conductivities of two ions. *)
Definition io_value (R_ T np nm lp lm : R) : R := R_ * T * (1 / np + 1 / nm) / (96500 ^ 2 * (1 / lp + 1 / lm)).
(** Fuller, Schettler and Giddings. *)
Definition ful_value (T P Ma Mb Va Vb : R) : R := 0.00143 * Rpower T (7 / 4) / (P * sqrt (2 / (1 / Ma + 1 / Mb)) * (Rpower Va (1 / 3) + Rpower Vb (1 / 3)) ^ 2).
(** Wilke and Chang. *)
Definition wc_value (T th M mu V : R) : R := 7.4 / 10 ^ 8 * sqrt (th * M) * T / (mu * Rpower V 0.6).
(** An argument given as the object [o] builds, or as the bare number. *)
Definition either (b : bool) (v : val) (x : R) (o : res val) : Prop := if b then o = Ok v else v = VNum x.
(** A DiffusionCoefficient in cm^2/s holding [v]. *)
Definition in_cm2s (v : val) (w : wrapped) : Prop := wval w = v /\ parse_units "cm^2/s" = Ok (wtop w, wbot w).
(** Arguments of fullers: each kind of quantity objects in the documented unit or
    numbers. *)
Definition fuller_call (bt bp bm bv : bool) (T P Ma Mb Va Vb : R) (vT vP vMa vMb vVa vVb : val) : Prop :=
  either bt vT T (simple Temperature T "K") /\ either bp vP P (simple Pressure P "atm") /\
  either bm vMa Ma (multi "MolecularWeight" Ma "g/mol") /\ either bm vMb Mb (multi "MolecularWeight" Mb "g/mol") /\
  either bv vVa Va (constant Va "cm^3/mol") /\ either bv vVb Vb (constant Vb "cm^3/mol") /\
  0 < T /\ 0 < P /\ 0 < Ma /\ 0 < Mb /\ 0 < Va /\ 0 < Vb.

(** ** Condensation, boiling, and the shell side *)
Definition co_value (k rho g h n T2 T1 d mu : R) : R := 0.729 * Rpower (k ^ 3 * rho ^ 2 * g * h / (n * (T2 - T1) * d * mu)) (1 / 4).
Definition bo_value (h rv rl st g : R) : R := 0.15 * h * sqrt rv * Rpower (st * g * (rl - rv)) (1 / 4).
Definition hs_value (Do Ge mu Pr k psi : R) : R := 0.2 * Rpower (Do * Ge / mu) 0.6 * Rpower Pr 0.33 * psi * k / Do.
