(** * Expr: arithmetic expressions over unit-carrying values

    An expression is what a user of the library writes: constants combined with
    the Python operators [* / + - ** neg].  [eval] evaluates it left to right
    with the operators of Units.v (units.py:180-252, 961-1189); the first
    exception ends the evaluation.  [denotes] is the specification: what the
    expression means as a physical quantity. *)
From Coq Require Import String List ZArith QArith Qcanon Bool Reals.
From Verif Require Import Py Num UnitsData UnitsStruct Units Spec.
Import ListNotations.
Local Open Scope string_scope.
Local Open Scope list_scope.
Local Open Scope R_scope.

Inductive expr :=
| ELeaf (v : pyval R)
| EMul (a b : expr)
| EDiv (a b : expr)
| EAdd (a b : expr)
| ESub (a b : expr)
| EPow (a : expr) (k : expo)
| ENeg (a : expr).

Fixpoint eval (e : expr) : res (pyval R) :=
  match e with
  | ELeaf v => Ok v
  | EMul a b => let* x := eval a in let* y := eval b in py_mul x y
  | EDiv a b => let* x := eval a in let* y := eval b in py_div x y
  | EAdd a b => let* x := eval a in let* y := eval b in py_add x y
  | ESub a b => let* x := eval a in let* y := eval b in py_sub x y
  | EPow a k => let* x := eval a in py_pow x k
  | ENeg a => let* x := eval a in py_neg x
  end.

Fixpoint leaves (e : expr) : list (pyval R) :=
  match e with
  | ELeaf v => [v]
  | EMul a b | EDiv a b | EAdd a b | ESub a b => leaves a ++ leaves b
  | EPow a _ | ENeg a => leaves a
  end.

(** The quantity an expression stands for in the unit system [w]. *)
Inductive denotes (w : usys) : expr -> R -> Prop :=
| DLeaf v x : qty w v = Some x -> denotes w (ELeaf v) x
| DMul a b x y : denotes w a x -> denotes w b y -> denotes w (EMul a b) (x * y)
| DDiv a b x y : denotes w a x -> denotes w b y -> y <> 0 -> denotes w (EDiv a b) (x / y)
| DAdd a b x y : denotes w a x -> denotes w b y -> denotes w (EAdd a b) (x + y)
| DSub a b x y : denotes w a x -> denotes w b y -> denotes w (ESub a b) (x - y)
| DPow a k x : denotes w a x -> 0 < x -> denotes w (EPow a k) (Rpower x (QcR (ev k)))
| DPowZ a t z x : denotes w a x -> x <> 0 \/ (0 <= z)%Z -> denotes w (EPow a (Ex t (qc z))) (powerRZ x z)
| DNeg a x : denotes w a x -> denotes w (ENeg a) (- x).

(** Operand pairs outside the known defects (C12, C13, C14, C16, C55): no prefix
    meets a single Unit, and no exponent is dropped. *)
Definition exp1 (u : unit_obj R) : Prop := ev (ue u) = qc 1.
Definition uscale (u : unit_obj R) : R := Rpower (pscale (un u)) (QcR (ev (ue u))).
Definition mscale (m : multi_obj R) : R := msize pscale (mtop m) (mbot m).
Definition clean_mul (a b : pyval R) : Prop :=
  match a, b with
  | VUnit u, VUnit v => (uc u = uc v /\ un u = un v) \/ (exp1 u /\ exp1 v)
  | VUnit u, VMulti m | VMulti m, VUnit u => mscale m * uscale u = 1
  | VUnit u, VNum _ | VNum _, VUnit u => exp1 u
  | _, _ => True
  end.
Definition clean_div (a b : pyval R) : Prop :=
  match a, b with
  | VUnit u, VMulti m => uscale u = mscale m
  | _, _ => True
  end.
Definition clean_add (a b : pyval R) : Prop :=
  match a, b with
  | VUnit _, VNum _ => False
  | _, _ => True
  end.

Fixpoint clean (e : expr) : Prop :=
  match e with
  | ELeaf _ => True
  | EMul a b => clean a /\ clean b /\ forall x y, eval a = Ok x -> eval b = Ok y -> clean_mul x y
  | EDiv a b => clean a /\ clean b /\ forall x y, eval a = Ok x -> eval b = Ok y -> clean_div x y
  | EAdd a b | ESub a b => clean a /\ clean b /\ forall x y, eval a = Ok x -> eval b = Ok y -> clean_add x y
  | EPow a _ | ENeg a => clean a
  end.
