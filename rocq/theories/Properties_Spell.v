(** * Spellings of the same unit (C115)

    The full claim: two spellings of a unit in which every name has the same
    exponent in all ([respelled], SpellSpec.v) are interchangeable.  The quantity
    and products are the same, and so are conversions of ordinary units.  Equality and sums
    tell the spellings apart, and conversions do when a
    temperature stands above the slash with exponent -1. *)
From Coq Require Import String Ascii List ZArith QArith Qcanon Bool Reals.
From Verif Require Import Py Num UnitsData UnitsStruct Units Spec SpellSpec SpellFacts.
Import ListNotations.
Local Open Scope string_scope.
Local Open Scope list_scope.
Local Open Scope R_scope.

Theorem C115_quantity : forall a b : multi_obj R, respelled a b -> forall w, qty w (VMulti a) = qty w (VMulti b).
Proof. exact respelled_qty. Qed.
Print Assumptions C115_quantity.
Theorem C115_mul : forall a b o : multi_obj R, respelled a b -> adm_multi a -> adm_multi b -> adm_multi o ->
  exists r r', py_mul (VMulti a) (VMulti o) = Ok r /\ py_mul (VMulti b) (VMulti o) = Ok r' /\
    forall w, coherent w -> qty w r = qty w r'.
Proof. exact respelled_mul. Qed.
Print Assumptions C115_mul.
Theorem C115_convert_partial : forall (a b : multi_obj R) s r, respelled a b -> all_ordinary a -> all_ordinary b ->
  multi_convert_to tables0 a s = Ok r -> multi_convert_to tables0 b s = Ok r.
Proof. exact respelled_convert. Qed.
Print Assumptions C115_convert_partial.
(** The target may be respelled as well, whatever the source. *)
Theorem C115_target_partial : forall (a : multi_obj R) s s' pt pb pt' pb' r, parse_units s = Ok (pt, pb) -> parse_units s' = Ok (pt', pb') ->
  (forall n, net n pt - net n pb = net n pt' - net n pb')%Qc -> (forall x, In x (pt ++ pb ++ pt' ++ pb') -> ordinary (bname x)) ->
  multi_convert_to tables0 a s = Ok r -> exists r', multi_convert_to tables0 a s' = Ok r' /\ respelled r r'.
Proof. exact respelled_target. Qed.
Print Assumptions C115_target_partial.
Example C115_case : mk_multi MMulti 3 "km^2*lb/hr*ft" = Ok velocity_a /\ mk_multi MMulti 3 "km*hr^-1*mol*km/ft*lb^-1*mol" = Ok velocity_b /\
  respelled velocity_a velocity_b /\ adm_multi velocity_a /\ adm_multi velocity_b /\ all_ordinary velocity_a /\ all_ordinary velocity_b /\
  exists r, multi_convert_to tables0 velocity_a "m*kg/s" = Ok r.
Proof. exact spelling_case. Qed.
(** Sums are accepted exactly when the spellings are the same, factor by factor. *)
Theorem C115_sum_exact : forall a b : multi_obj R, respelled a b ->
  ((exists r, py_add (VMulti a) (VMulti b) = Ok r) <-> shape (VMulti a) = shape (VMulti b)) /\
  ((exists r, py_sub (VMulti a) (VMulti b) = Ok r) <-> shape (VMulti a) = shape (VMulti b)).
Proof. exact respelled_sum. Qed.
Print Assumptions C115_sum_exact.
Theorem C115_slash_refuted : exists a b : multi_obj R, mk_multi MMulti 7 "m/s" = Ok a /\ mk_multi MMulti 7 "m*s^-1" = Ok b /\ respelled a b /\
  py_eq (VMulti a) (VMulti b) = false /\ py_add (VMulti a) (VMulti b) = Raise ETypeError /\ py_sub (VMulti a) (VMulti b) = Raise ETypeError.
Proof. exact slash_refuted. Qed.
Print Assumptions C115_slash_refuted.
Theorem C115_square_refuted : exists a b : multi_obj R, mk_multi MMulti 7 "m*m/s" = Ok a /\ mk_multi MMulti 7 "m^2/s" = Ok b /\ respelled a b /\
  py_eq (VMulti a) (VMulti b) = false /\ py_add (VMulti a) (VMulti b) = Raise ETypeError /\ py_sub (VMulti a) (VMulti b) = Raise ETypeError.
Proof. exact square_refuted. Qed.
Print Assumptions C115_square_refuted.
Theorem C115_degree_refuted : exists a b r r' : multi_obj R, mk_multi MMulti 5 "A/K" = Ok a /\ mk_multi MMulti 5 "A*K^-1" = Ok b /\ respelled a b /\
  multi_convert_to tables0 a "A/K" = Ok r /\ mv r = 5 /\ multi_convert_to tables0 b "A/K" = Ok r' /\ mv r' = -5.
Proof. exact degree_refuted. Qed.
Print Assumptions C115_degree_refuted.
