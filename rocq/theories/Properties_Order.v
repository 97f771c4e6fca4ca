(** * The order of the factors of a unit (C113)

    The full claim: writing the factors of a half in another order changes
    nothing.  It holds for equality, for the quantity, for products and
    quotients, and for conversions in which no unit is opened (Pa, J, W, psi, cP, C, V).  It fails
    for sums and differences, which compare the lists in order, and for
    conversions with opened units, because the pass that opens a unit does not
    look at the next one.  [reordered] and [none_opened] are in OrderSpec.v. *)
From Coq Require Import String Ascii List ZArith QArith Qcanon Bool Reals Permutation.
From Verif Require Import Py Num UnitsData UnitsStruct Units Spec TextSpec OrderSpec OrderFacts.
Import ListNotations.
Local Open Scope string_scope.
Local Open Scope list_scope.
Local Open Scope R_scope.

Theorem C113_text : forall c (v : R) top bot top' bot', top <> nil -> (forall f, In f (top ++ bot) -> factor_ok f) ->
  Permutation top top' -> Permutation bot bot' ->
  exists a b, mk_multi c v (unit_text top bot) = Ok a /\ mk_multi c v (unit_text top' bot') = Ok b /\ reordered a b.
Proof. exact text_reordered. Qed.
Print Assumptions C113_text.
Theorem C113_equal : forall a b : multi_obj R, reordered a b ->
  py_eq (VMulti a) (VMulti b) = true /\ forall w, qty w (VMulti a) = qty w (VMulti b).
Proof. exact reordered_equal. Qed.
Print Assumptions C113_equal.
Theorem C113_mul : forall a b o : multi_obj R, reordered a b -> adm_multi a -> adm_multi o ->
  exists r r', py_mul (VMulti a) (VMulti o) = Ok r /\ py_mul (VMulti b) (VMulti o) = Ok r' /\
    forall w, coherent w -> qty w r = qty w r'.
Proof. exact reordered_mul. Qed.
Print Assumptions C113_mul.
Theorem C113_div : forall a b o : multi_obj R, reordered a b -> adm_multi a -> adm_multi o -> mv o <> 0 ->
  exists r r', py_div (VMulti a) (VMulti o) = Ok r /\ py_div (VMulti b) (VMulti o) = Ok r' /\
    forall w, coherent w -> qty w r = qty w r'.
Proof. exact reordered_div. Qed.
Print Assumptions C113_div.
(** The source and the target may both be reordered. *)
Theorem C113_convert_partial : forall (a b : multi_obj R) top bot top' bot' r, reordered a b -> none_opened (names_of a) ->
  top <> nil -> (forall f, In f (top ++ bot) -> factor_ok f) -> Permutation top top' -> Permutation bot bot' ->
  none_opened (map fst (top ++ bot)) ->
  multi_convert_to tables0 a (unit_text top bot) = Ok r ->
  exists r', multi_convert_to tables0 b (unit_text top' bot') = Ok r' /\ reordered r r'.
Proof. exact reordered_convert. Qed.
Print Assumptions C113_convert_partial.
Example C113_case : mk_multi MMulti 2 "kg*m/s^2" = Ok kg_m /\ mk_multi MMulti 2 "m*kg/s^2" = Ok m_kg /\ reordered kg_m m_kg /\
  py_add (VMulti kg_m) (VMulti m_kg) = Raise ETypeError /\ py_sub (VMulti kg_m) (VMulti m_kg) = Raise ETypeError /\
  none_opened (names_of kg_m) /\ adm_multi kg_m /\ exists r, multi_convert_to tables0 kg_m "m*lb/s^2" = Ok r.
Proof. exact order_sums. Qed.

(** Sums and differences: exactly when the two lists agree in order. *)
Theorem C113_sum_exact : forall a b : multi_obj R, reordered a b ->
  ((exists r, py_add (VMulti a) (VMulti b) = Ok r) <-> shape (VMulti a) = shape (VMulti b)) /\
  ((exists r, py_sub (VMulti a) (VMulti b) = Ok r) <-> shape (VMulti a) = shape (VMulti b)) /\
  (shape (VMulti a) <> shape (VMulti b) -> py_add (VMulti a) (VMulti b) = Raise ETypeError /\ py_sub (VMulti a) (VMulti b) = Raise ETypeError).
Proof. exact reordered_add. Qed.
Print Assumptions C113_sum_exact.
Theorem C113_sum_refuted : exists a b : multi_obj R, reordered a b /\ py_eq (VMulti a) (VMulti b) = true /\
  py_add (VMulti a) (VMulti b) = Raise ETypeError /\ py_sub (VMulti a) (VMulti b) = Raise ETypeError.
Proof. exact sum_refuted. Qed.
Print Assumptions C113_sum_refuted.
Theorem C113_convert_refuted : exists a b : multi_obj R, mk_multi MMulti 3 "W*Pa" = Ok a /\ mk_multi MMulti 3 "Pa*W" = Ok b /\
  reordered a b /\ py_eq (VMulti a) (VMulti b) = true /\
  multi_convert_to tables0 a "W*Pa" = Ok a /\ multi_convert_to tables0 b "W*Pa" = Raise EKeyError.
Proof. exact convert_refuted. Qed.
Print Assumptions C113_convert_refuted.
