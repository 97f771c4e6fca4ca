(** * The unit checks of Fuller's correlation (C71) *)
From Coq Require Import String Ascii List ZArith QArith Qcanon Bool Reals.
From Verif Require Import Py Num UnitsData UnitsStruct Units Spec ConvSpec Solve Formulas Correlations FormulaSpec FullerFacts.
Import ListNotations.
Local Open Scope string_scope.
Local Open Scope list_scope.
Local Open Scope R_scope.

(** Whenever [fullers] returns, every argument that is a unit object has the
    documented unit. *)
Theorem C71_fuller_checked : forall (vT vP vMa vMb vVa vVb : val) w, fullers vT vP vMa vMb vVa vVb = Ok w ->
  forall v s, In (v, s) [(vT, "K"); (vP, "atm"); (vMa, "g/mol"); (vMb, "g/mol"); (vVa, "cm^3/mol"); (vVb, "cm^3/mol")] ->
  (forall u, v = VUnit u -> un u = s) /\ (forall m, v = VMulti m -> exists t b, parse_units s = Ok (t, b) /\ shape v = shape (VMulti (MO MMulti 0 t b))).
Proof. exact fuller_checked. Qed.
Print Assumptions C71_fuller_checked.
(** C71_fuller's example calls meet the hypothesis; a pressure in Pa does not. *)
Example C71_fuller_checked_case : exists vT vP : val, simple Temperature 300 "K" = Ok vT /\ simple Pressure 101325 "Pa" = Ok vP /\
  fullers vT vP (VNum 2) (VNum 29) (VNum 7) (VNum 20) = Raise EIncorrectUnits.
Proof. exact fuller_check_case. Qed.
