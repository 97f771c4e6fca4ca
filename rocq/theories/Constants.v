(** * Constants: the remaining constant of utility/constants.py

    The others are in Formulas.v. *)
From Coq Require Import String Reals.
From Verif Require Import Py Num UnitsData UnitsStruct Units Formulas.
Local Open Scope string_scope.
Local Open Scope R_scope.

(** Line 12. *)
Definition AVAGADROS_CONSTANT : res val := rmap VUnit (mk_unit UUnit (6.02214076 * 10 ^ 23) "mol" (eint (-1))).
