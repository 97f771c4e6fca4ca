(** * A reaction written in another order (C114)

    The full claim: the coefficient printed for a molecule does not depend on the
    order in which the reaction is written.  [rewritten] permutes each
    side and [turned] also exchanges the sides (RewriteSpec.v). *)
From Coq Require Import String Ascii List ZArith QArith Qcanon Qabs Bool Permutation.
From Verif Require Import Py Balance BalanceSpec RewriteSpec RewriteFacts.
Import ListNotations.
Local Open Scope string_scope.
Local Open Scope list_scope.

(** Every order in which the coefficients before the last have no common divisor
    gives the coefficients of the reaction. *)
Theorem C114_order_partial : forall rs ps p kr kp kl rs' ps' p' kr' kp' kl',
  rs <> [] -> Forall molecule rs -> Forall molecule ps -> molecule p -> smallest_balance rs ps p kr kp kl ->
  forall lstsq enum, set_order enum -> accurate lstsq rs' ps' p' (kr' ++ kp') kl' ->
  rewritten rs ps p kr kp kl rs' ps' p' kr' kp' kl' \/ turned rs ps p kr kp kl rs' ps' p' kr' kp' kl' ->
  gcd_of (kr' ++ kp') = 1%Z ->
  balance_equation lstsq enum (equation_text rs' (ps' ++ [p'])) = Ok (balanced_text kr' rs' (kp' ++ [kl']) (ps' ++ [p'])).
Proof. exact order_right. Qed.
Print Assumptions C114_order_partial.
(** In any other order the printed equation does not balance. *)
Theorem C114_exact : forall rs ps p kr kp kl rs' ps' p' kr' kp' kl',
  rs <> [] -> Forall molecule rs -> Forall molecule ps -> molecule p -> smallest_balance rs ps p kr kp kl ->
  forall lstsq enum, set_order enum -> accurate lstsq rs' ps' p' (kr' ++ kp') kl' ->
  rewritten rs ps p kr kp kl rs' ps' p' kr' kp' kl' \/ turned rs ps p kr kp kl rs' ps' p' kr' kp' kl' ->
  exists xr xp, balance_equation lstsq enum (equation_text rs' (ps' ++ [p'])) = Ok (balanced_text xr rs' xp (ps' ++ [p'])) /\
    (balanced xr rs' xp (ps' ++ [p']) <-> gcd_of (kr' ++ kp') = 1%Z).
Proof. exact order_right_iff. Qed.
Print Assumptions C114_exact.
(** 2 H2O2 -> O2 + 2 H2O: right with H2O last, wrong with O2 last. *)
Theorem C114_order_refuted : exists lstsq rs ps p kr kp kl ps' p' kp' kl',
  smallest_balance rs ps p kr kp kl /\ rewritten rs ps p kr kp kl rs ps' p' kr kp' kl' /\
  Forall molecule (rs ++ ps ++ [p]) /\ accurate lstsq rs ps p (kr ++ kp) kl /\ accurate lstsq rs ps' p' (kr ++ kp') kl' /\
  equation_text rs (ps ++ [p]) = "H2O2 -> O2 + H2O" /\ equation_text rs (ps' ++ [p']) = "H2O2 -> H2O + O2" /\
  forall enum, set_order enum ->
    balance_equation lstsq enum "H2O2 -> O2 + H2O" = Ok "2.0 H2O2 -> 1.0 O2 + 2.0 H2O" /\
    balance_equation lstsq enum "H2O2 -> H2O + O2" = Ok "1.0 H2O2 -> 1.0 H2O + 0.0 O2".
Proof. exact peroxide_refuted. Qed.
Print Assumptions C114_order_refuted.
Example C114_case : molecule h2o2 /\ molecule h2o /\ molecule o2 /\ smallest_balance [h2o2] [o2] h2o [2%Z] [1%Z] 2 /\
  accurate peroxide_solver [h2o2] [o2] h2o ([2%Z] ++ [1%Z]) 2 /\ gcd_of ([2%Z] ++ [1%Z]) = 1%Z /\
  turned [h2o2] [o2] h2o [2%Z] [1%Z] 2 [h2o; o2] [] h2o2 [2%Z; 1%Z] [] 2 /\ gcd_of ([2%Z; 1%Z] ++ []) = 1%Z.
Proof.
  exact (conj (proj1 peroxide_molecules) (conj (proj1 (proj2 peroxide_molecules)) (conj (proj2 (proj2 peroxide_molecules))
    (conj (proj2 peroxide_balance) (conj (proj2 peroxide_accurate) (conj eq_refl turned_case)))))).
Qed.
