(** * The Python type of exponents (C117)

    The full claim: whether an exponent is an int or an equal float makes no
    difference.  No operator and no conversion tells [2] from [2.0]: the results
    are alike, or the same exception is raised.  [==] of two MultiUnits does tell them
    apart (C109 says when). *)
From Coq Require Import String Ascii List ZArith QArith Qcanon Bool Reals.
From Verif Require Import Py Num UnitsData UnitsStruct Units Expr AlikeSpec AlikeFacts.
Import ListNotations.
Local Open Scope string_scope.
Local Open Scope list_scope.

(** For any arithmetic of the values, floats included. *)
Theorem C117_mul : forall (T : Type) (N : Num T) (a a' b b' : pyval T), alike a a' -> alike b b' -> alike_result alike (py_mul a b) (py_mul a' b').
Proof. exact @mul_alike. Qed.
Print Assumptions C117_mul.
Theorem C117_div : forall (T : Type) (N : Num T) (a a' b b' : pyval T), alike a a' -> alike b b' -> alike_result alike (py_div a b) (py_div a' b').
Proof. exact @div_alike. Qed.
Print Assumptions C117_div.
Theorem C117_add : forall (T : Type) (N : Num T) (a a' b b' : pyval T), alike a a' -> alike b b' -> alike_result alike (py_add a b) (py_add a' b').
Proof. exact @add_alike. Qed.
Print Assumptions C117_add.
Theorem C117_sub : forall (T : Type) (N : Num T) (a a' b b' : pyval T), alike a a' -> alike b b' -> alike_result alike (py_sub a b) (py_sub a' b').
Proof. exact @sub_alike. Qed.
Print Assumptions C117_sub.
Theorem C117_neg : forall (T : Type) (N : Num T) (a a' : pyval T), alike a a' -> alike_result alike (py_neg a) (py_neg a').
Proof. exact @neg_alike. Qed.
Print Assumptions C117_neg.
Theorem C117_pow : forall (T : Type) (N : Num T) (a a' : pyval T) k k', alike a a' -> ev k = ev k' -> alike_result alike (py_pow a k) (py_pow a' k').
Proof. exact @pow_alike. Qed.
Print Assumptions C117_pow.
Theorem C117_convert : forall (T : Type) (N : Num T) (tb : tables T) (m m' : multi_obj T) target, alike (VMulti m) (VMulti m') ->
  multi_convert_to tb m target = multi_convert_to tb m' target.
Proof. exact @convert_alike. Qed.
Print Assumptions C117_convert.
Theorem C117_unit_convert : forall (T : Type) (N : Num T) (tb : tables T) (u w : unit_obj T) target, alike (VUnit u) (VUnit w) ->
  alike_result (fun x y => alike (VUnit x) (VUnit y)) (unit_convert_to tb u target) (unit_convert_to tb w target).
Proof. exact @uconvert_alike. Qed.
Print Assumptions C117_unit_convert.
(** Whole expressions, over the reals. *)
Theorem C117_expr : forall e e' : expr, alike_expr e e' -> alike_result alike (eval e) (eval e').
Proof. exact expr_alike. Qed.
Print Assumptions C117_expr.
Theorem C117_equal_partial : forall u w x y : unit_obj R, alike (VUnit u) (VUnit w) -> alike (VUnit x) (VUnit y) ->
  py_eq (VUnit u) (VUnit x) = py_eq (VUnit w) (VUnit y).
Proof. exact alike_unit_eq. Qed.
Print Assumptions C117_equal_partial.
Example C117_case : mk_multi MMulti 3%R "kg*m^2/s" = Ok area_f /\ alike (VMulti area_f) (VMulti area_i) /\ area_f <> area_i /\
  alike (VUnit (UO Length 2%R "m" (eint 2))) (VUnit (UO Length 2%R "m" (eflt (qc 2)))).
Proof. exact alike_case. Qed.
Theorem C117_equal_refuted : exists a b : pyval R, alike a b /\ py_eq a a = true /\ py_eq a b = false.
Proof. exact alike_eq_refuted. Qed.
Print Assumptions C117_equal_refuted.
