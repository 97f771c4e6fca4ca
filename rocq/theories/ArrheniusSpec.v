(** * ArrheniusSpec: the units the Arrhenius function gives A, for further orders

    mol/L to the power 1 - order over seconds, as displayed. *)
From Coq Require Import String List ZArith QArith Qcanon.
From Verif Require Import Py.
Import ListNotations.
Local Open Scope string_scope.
Definition more_orders : list (expo * string) :=
  [(eint 2, "L¹ / mol * s"); (eint 3, "L² / mol² * s"); (eint 4, "L³ / mol³ * s"); (eint (-1), "mol² / L² * s"); (eint (-2), "mol³ / L³ * s");
   (eflt (Q2Qc (1 # 2)), "mol⁰.⁵ / L⁰.⁵ * s"); (eflt (Q2Qc (3 # 2)), "L⁰.⁵ / mol⁰.⁵ * s"); (eflt (Q2Qc (5 # 2)), "L¹.⁵ / mol¹.⁵ * s"); (eflt (qc 2), "L¹ / mol * s"); (eflt (qc 3), "L² / mol² * s")].
