(** * Properties of the constants (C106)

    [constants] lists the library's constants with their true values in SI units
    and half a unit of the last digit they are written with; [gas_table] is that
    of C53; [qty w v] is the size of [v] in the unit system [w]. *)
From Coq Require Import String List Reals Lra.
From Verif Require Import Py Num UnitsData UnitsStruct Units Spec Formulas FormulaSpec Constants ConstSpec ConstFacts.
Import ListNotations.
Local Open Scope string_scope.
Local Open Scope R_scope.

(** ** C106

    Full statement: the constants are right to the digits given and can be used in
    products and quotients.  Multiplying an amount by Avogadro's constant and
    dividing a number by it are refuted, and two of the gas constants are off in
    the last digit. *)
Theorem C106_values : forall c x p, In (c, x, p) constants -> exists v y, c = Ok v /\ qty si v = Some y /\ Rabs (y - x) <= p.
Proof. exact constants_close. Qed.
Print Assumptions C106_values.
Theorem C106_gas : forall g r p, In (g, r, p) gas_table -> exists v y, g = Ok v /\ qty si v = Some y /\ Rabs (y - R_SI) <= / 10000 * R_SI.
Proof. exact gas_close. Qed.
Print Assumptions C106_gas.
Example C106_case : In (RADIATION_CONSTANT, sigma_SI, 0.005 / 10 ^ 8) constants /\ In (get_gas_constant "K" "L" "atm" false, 0.08205 * 101.325, 0.00001 * 101.325) gas_table.
Proof. split; cbn; tauto. Qed.
Theorem C106_gas_digits_refuted : exists g r p v y, In (g, r, p) gas_table /\ g = Ok v /\ qty si v = Some y /\ Rabs (y - R_SI) > p.
Proof. exact gas_last_digit. Qed.
Print Assumptions C106_gas_digits_refuted.
(** Boltzmann's constant times Avogadro's is the gas constant, in every unit system. *)
Theorem C106_product : exists b a r, BOLTZMANS_CONSTANT = Ok b /\ AVAGADROS_CONSTANT = Ok a /\
  py_mul b a = Ok r /\ py_mul a b = Ok r /\
  forall w, coherent w -> qty w r = Some (R_SI * w "J" / (w "mol" * w "K")).
Proof. exact product_is_R. Qed.
Print Assumptions C106_product.
(** What one molecule has of a quantity per mole. *)
Theorem C106_per_molecule_partial : forall m : multi_obj R, adm_multi m -> exists a r, AVAGADROS_CONSTANT = Ok a /\ py_div (VMulti m) a = Ok r /\
  forall w x, coherent w -> qty w (VMulti m) = Some x -> qty w r = Some (x * w "mol" / NA_SI).
Proof. exact molecule_right. Qed.
Print Assumptions C106_per_molecule_partial.
Example C106_per_molecule_case : exists m, mk_multi (MSub "MolecularWeight") 18 "g/mol" = Ok m /\ adm_multi m /\ qty si (VMulti m) = Some 0.018.
Proof. exact water_weight. Qed.
(** The number of molecules in an amount keeps the unit mol^2. *)
Theorem C106_molecules_exact : forall x, exists n a r, simple Amount x "mol" = Ok n /\ AVAGADROS_CONSTANT = Ok a /\ py_mul n a = Ok r /\
  forall w, coherent w -> (qty w r = Some (x * NA_SI) <-> x = 0 \/ w "mol" = 1).
Proof. exact amount_exact. Qed.
Print Assumptions C106_molecules_exact.
Theorem C106_molecules_refuted : exists w x n a r, coherent w /\ simple Amount x "mol" = Ok n /\ AVAGADROS_CONSTANT = Ok a /\ py_mul n a = Ok r /\ qty w r <> Some (x * NA_SI).
Proof. exact amount_refuted. Qed.
Print Assumptions C106_molecules_refuted.
Theorem C106_count_refuted : forall x, exists a, AVAGADROS_CONSTANT = Ok a /\ py_div (VNum x) a = Raise ETypeError.
Proof. exact count_refused. Qed.
Print Assumptions C106_count_refuted.
