(** * Eos: the cubic equations of state

    cheme_calculations/thermodynamics/cubic_equations.py, function by function.
    Values are numbers or unit objects; every operator is the one of Units.
    [iterations] is an int: range() of a negative number is empty. *)
From Coq Require Import String List ZArith QArith Qcanon Bool.
From Verif Require Import Py Num UnitsData UnitsStruct Units.
Import ListNotations.
Local Open Scope string_scope.

Section Eos.
Context {T : Type} `{Num T}.
Notation v := (pyval T).
Definition lift2 (f : v -> v -> res v) (x y : res v) : res v := let* a := x in let* b := y in f a b.
Declare Scope eos_scope.
Delimit Scope eos_scope with eos.
Notation "x + y" := (lift2 py_add x y) : eos_scope.
Notation "x - y" := (lift2 py_sub x y) : eos_scope.
Notation "x * y" := (lift2 py_mul x y) : eos_scope.
Notation "x / y" := (lift2 py_div x y) : eos_scope.
Notation "x ** k" := (let* a := x in py_pow a k) (at level 30, right associativity) : eos_scope.
Notation "! a" := (Ok a) (at level 5, a at level 4) : eos_scope.
(** A numeric literal. *)
Definition num (q : Q) : res v := Ok (VNum (nq q)).
Arguments num q%Q.
Definition e_half : expo := eflt (Q2Qc (1 # 2)).
Definition e_mhalf : expo := eflt (Q2Qc (-1 # 2)).
Local Open Scope eos_scope.

(** The right-hand sides of the iterations: lines 53 and 56 (also 116, 119, 177,
    180 and 240), lines 61 and 64 (also 123, 126, 184, 187 and 247), lines 237 and 244. *)
Definition vapor_rhs (beta q z_in : v) : res v :=
  num 1 + !beta - !q * !beta * ((!z_in - !beta) / (!z_in * (!z_in + !beta))).
Definition liquid_rhs (beta q z_in : v) : res v :=
  !beta + !z_in * (!z_in + !beta) * ((num 1 + !beta - !z_in) / (!q * !beta)).
Definition pr_rhs (sigma epsilon beta q z_in : v) : res v :=
  !beta + (!z_in + !epsilon * !beta) * (!z_in + !sigma * !beta) * ((num 1 + !beta - !z_in) / (!q * !beta)).

(** [for i in range(n): z_in = z_iter; z_iter = f(z_in)]. *)
Fixpoint loop (f : v -> res v) (n : nat) (z_iter : v) : res v :=
  match n with
  | O => Ok z_iter
  | S n => let* z := f z_iter in loop f n z
  end.
(** The two if statements; with any other state z_iter is never assigned. *)
Definition solve_state (state : string) (first_vapor vapor first_liquid liquid : v -> res v) (beta : v) (iterations : Z) : res v :=
  if String.eqb state "vapor" then
    let* z := first_vapor (VNum (nq 1)) in loop vapor (Z.to_nat iterations) z
  else if String.eqb state "liquid" then
    let* z := first_liquid beta in loop liquid (Z.to_nat iterations) z
  else Raise EUnboundLocalError.

(** Lines 11-66. *)
Definition rendlich_kwong (temperature pressure Tcrit Pcrit : v) (state : string) (iterations : Z) : res v :=
  let* p_reduced := !pressure / !Pcrit in
  let* t_reduced := !temperature / !Tcrit in
  let* alpha := !t_reduced ** e_mhalf in
  let* beta := num (8664 # 100000) * (!p_reduced / !t_reduced) in
  let* q := (num (42748 # 100000) * !alpha) / (num (8664 # 100000) * !t_reduced) in
  solve_state state (vapor_rhs beta q) (vapor_rhs beta q) (liquid_rhs beta q) (liquid_rhs beta q) beta iterations.

(** Lines 70-128. *)
Definition van_der_waals (temperature pressure Tcrit Pcrit : v) (state : string) (iterations : Z) : res v :=
  let* p_reduced := !pressure / !Pcrit in
  let* t_reduced := !temperature / !Tcrit in
  let* beta := num (1 # 8) * (!p_reduced / !t_reduced) in
  let* q := (num (27 # 64) * num 1) / (num (1 # 8) * !t_reduced) in
  solve_state state (vapor_rhs beta q) (vapor_rhs beta q) (liquid_rhs beta q) (liquid_rhs beta q) beta iterations.

(** [(1 + (c0 + c1*w - c2*w**2)*(1 - t**(1/2)))**2]: lines 171 and 231. *)
Definition soave_alpha (c0 c1 c2 : Q) (w t_reduced : v) : res v :=
  (num 1 + (num c0 + num c1 * !w - num c2 * !w ** eint 2) * (num 1 - !t_reduced ** e_half)) ** eint 2.

(** Lines 131-189. *)
Definition soave_rendlich_kwong (temperature pressure Tcrit Pcrit : v) (state : string) (omega_lower : v) (iterations : Z) : res v :=
  let* p_reduced := !pressure / !Pcrit in
  let* t_reduced := !temperature / !Tcrit in
  let* alpha := soave_alpha (480 # 1000) (1574 # 1000) (176 # 1000) omega_lower t_reduced in
  let* beta := num (8664 # 100000) * (!p_reduced / !t_reduced) in
  let* q := (num (42748 # 100000) * !alpha) / (num (8664 # 100000) * !t_reduced) in
  solve_state state (vapor_rhs beta q) (vapor_rhs beta q) (liquid_rhs beta q) (liquid_rhs beta q) beta iterations.

(** Lines 193-249. *)
Definition peng_robinson (temperature pressure Tcrit Pcrit : v) (state : string) (omega_lower : v) (iterations : Z) : res v :=
  let* p_reduced := !pressure / !Pcrit in
  let* t_reduced := !temperature / !Tcrit in
  let* sigma := num 1 + num 2 ** e_half in
  let* epsilon := num 1 - num 2 ** e_half in
  let* alpha := soave_alpha (37464 # 100000) (154226 # 100000) (26992 # 100000) omega_lower t_reduced in
  let* beta := num (7780 # 100000) * (!p_reduced / !t_reduced) in
  let* q := (num (45724 # 100000) * !alpha) / (num (7780 # 100000) * !t_reduced) in
  solve_state state (pr_rhs sigma epsilon beta q) (vapor_rhs beta q) (pr_rhs sigma epsilon beta q) (liquid_rhs beta q) beta iterations.
End Eos.
