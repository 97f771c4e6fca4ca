(** * Products and quotients of sums (C116)

    The full claim: whenever a sum (or difference) of two quantities is accepted,
    multiplying it by, or dividing it by, a number, a Unit or a MultiUnit gives
    the very object that the sum (difference) of the products or quotients gives.
    It holds of quotients and of products, except when two Units of
    different classes are added and multiplied by a Unit of the same name and of one of
    their classes: then the products cannot be added. *)
From Coq Require Import String Ascii List ZArith QArith Qcanon Bool Reals.
From Verif Require Import Py Num UnitsData UnitsStruct Units Spec DistribSpec DistribFacts.
Import ListNotations.
Local Open Scope string_scope.
Local Open Scope list_scope.
Local Open Scope R_scope.

Theorem C116_left_partial : forall minus (a b o s p : pyval R), operand o -> summands a b -> ~ clash a b o -> plus_or_minus minus a b = Ok s -> py_mul o a = Ok p ->
  exists q r, py_mul o b = Ok q /\ py_mul o s = Ok r /\ plus_or_minus minus p q = Ok r.
Proof. exact left_distributes. Qed.
Print Assumptions C116_left_partial.
Theorem C116_right_partial : forall minus (a b o s p : pyval R), operand o -> summands a b -> ~ clash a b o -> plus_or_minus minus a b = Ok s -> py_mul a o = Ok p ->
  exists q r, py_mul b o = Ok q /\ py_mul s o = Ok r /\ plus_or_minus minus p q = Ok r.
Proof. exact right_distributes. Qed.
Print Assumptions C116_right_partial.
Theorem C116_div : forall minus (a b o s p : pyval R), operand o -> summands a b -> plus_or_minus minus a b = Ok s -> py_div a o = Ok p ->
  exists q r, py_div b o = Ok q /\ py_div s o = Ok r /\ plus_or_minus minus p q = Ok r.
Proof. exact div_distributes. Qed.
Print Assumptions C116_div.
Example C116_case : mk_multi MMulti 3 "kg*m/s^2" = Ok force_b /\ mk_multi MMulti 4 "kg*m/s^2" = Ok force_c /\ mk_multi MMulti 2 "km/hr" = Ok speed_o /\
  mk_unit Length 5 "ft" (eint 1) = Ok (feet 5) /\ mk_unit Length 6 "ft" (eint 1) = Ok (feet 6) /\
  summands (VMulti force_b) (VMulti force_c) /\ summands (VUnit (feet 5)) (VUnit (feet 6)) /\
  forall minus, (exists s, plus_or_minus minus (VMulti force_b) (VMulti force_c) = Ok s) /\ (exists s, plus_or_minus minus (VUnit (feet 5)) (VUnit (feet 6)) = Ok s) /\
  (exists p, py_mul (VMulti speed_o) (VMulti force_b) = Ok p) /\ (exists p, py_mul (VMulti force_b) (VMulti speed_o) = Ok p) /\ (exists p, py_div (VMulti force_b) (VMulti speed_o) = Ok p) /\
  (exists p, py_mul (VMulti speed_o) (VUnit (feet 5)) = Ok p) /\ (exists p, py_mul (VUnit (feet 5)) (VMulti speed_o) = Ok p).
Proof. exact distrib_case. Qed.
Theorem C116_clash : forall minus (a b o s p q : pyval R), summands a b -> clash a b o -> plus_or_minus minus a b = Ok s ->
  (py_mul a o = Ok p -> py_mul b o = Ok q -> plus_or_minus minus p q = Raise ETypeError) /\
  (py_mul o a = Ok p -> py_mul o b = Ok q -> plus_or_minus minus p q = Raise ETypeError).
Proof. exact (fun minus a b o s p q h k e => conj (clash_right minus a b o s p q h k e) (clash_left minus a b o s p q h k e)). Qed.
Print Assumptions C116_clash.
(** [Unit(1, 'm') + Length(2, 'm')] is accepted; times [Length(3, 'm')] the two
    products cannot be added. *)
Theorem C116_classes_refuted : exists u v o : unit_obj R, mk_unit UUnit 1 "m" (eint 1) = Ok u /\ mk_unit Length 2 "m" (eint 1) = Ok v /\ mk_unit Length 3 "m" (eint 1) = Ok o /\
  exists s p q, py_add (VUnit u) (VUnit v) = Ok s /\ py_mul (VUnit u) (VUnit o) = Ok p /\ py_mul (VUnit v) (VUnit o) = Ok q /\ py_add p q = Raise ETypeError.
Proof. exact classes_refuted. Qed.
Print Assumptions C116_classes_refuted.
