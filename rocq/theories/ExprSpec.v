(** * ExprSpec: the quantity an expression evaluates to, defects included

    [lost_mul], [lost_div], [lost_add] are the defects of C12-C14, C16 and C55 as
    factors: what the operator returns is the right quantity divided by the
    factor.  [gives w e x] follows the structure of [e] and says that the value
    of [e] stands for [x]; [loss w e] is the factor of a whole expression without
    sums. *)
From Coq Require Import String List ZArith QArith Qcanon Bool Reals.
From Verif Require Import Py Num UnitsData UnitsStruct Units Spec Expr.
Import ListNotations.
Local Open Scope string_scope.
Local Open Scope list_scope.
Local Open Scope R_scope.

(** What is lost when the exponent of [u] becomes 1. *)
Definition dropped (w : usys) (u : unit_obj R) : R := Rpower (w (un u)) (QcR (ev (ue u)) - 1).
Definition lost_mul (w : usys) (a b : pyval R) : R :=
  match a, b with
  | VUnit u, VUnit v => if ucls_eqb (uc u) (uc v) && String.eqb (un u) (un v) then 1 else dropped w u * dropped w v
  | VUnit u, VMulti m | VMulti m, VUnit u => mscale m * uscale u
  | VUnit u, VNum _ | VNum _, VUnit u => dropped w u
  | _, _ => 1
  end.
Definition lost_div (a b : pyval R) : R :=
  match a, b with
  | VUnit u, VMulti m => uscale u / mscale m
  | _, _ => 1
  end.
(** A plain number added to a unit [u] counts in units of [u], without its exponent. *)
Definition added (w : usys) (a b : pyval R) (x y : R) : R :=
  match a, b with
  | VUnit u, VNum _ => x / dropped w u + y * w (un u)
  | _, _ => x + y
  end.

Inductive gives (w : usys) : expr -> R -> Prop :=
| GLeaf v x : qty w v = Some x -> gives w (ELeaf v) x
| GMul a b x y p q : gives w a x -> gives w b y -> eval a = Ok p -> eval b = Ok q -> gives w (EMul a b) (x * y / lost_mul w p q)
| GDiv a b x y p q : gives w a x -> gives w b y -> y <> 0 -> eval a = Ok p -> eval b = Ok q -> gives w (EDiv a b) (x / y / lost_div p q)
| GAdd a b x y p q : gives w a x -> gives w b y -> eval a = Ok p -> eval b = Ok q -> gives w (EAdd a b) (added w p q x y)
| GSub a b x y p q : gives w a x -> gives w b y -> eval a = Ok p -> eval b = Ok q -> gives w (ESub a b) (added w p q x (- y))
| GPow a k x : gives w a x -> 0 < x -> gives w (EPow a k) (Rpower x (QcR (ev k)))
| GPowZ a t z x : gives w a x -> x <> 0 \/ (0 <= z)%Z -> gives w (EPow a (Ex t (qc z))) (powerRZ x z)
| GPow0 a k : gives w a 0 -> 0 < QcR (ev k) -> gives w (EPow a k) 0
| GNeg a x : gives w a x -> gives w (ENeg a) (- x).

(** Expressions without sums, and the factor they lose. *)
Fixpoint monomial (e : expr) : Prop :=
  match e with
  | ELeaf _ => True
  | EMul a b | EDiv a b => monomial a /\ monomial b
  | EAdd _ _ | ESub _ _ => False
  | EPow a _ | ENeg a => monomial a
  end.
Definition with_vals (a b : expr) (f : pyval R -> pyval R -> R) : R :=
  match eval a, eval b with Ok p, Ok q => f p q | _, _ => 1 end.
Fixpoint loss (w : usys) (e : expr) : R :=
  match e with
  | ELeaf _ | EAdd _ _ | ESub _ _ => 1
  | EMul a b => loss w a * loss w b * with_vals a b (lost_mul w)
  | EDiv a b => loss w a / loss w b * with_vals a b lost_div
  | EPow a k => Rpower (loss w a) (QcR (ev k))
  | ENeg a => loss w a
  end.

(** The prefix sizes of a Unit, and of a MultiUnit with the Unit it is multiplied by. *)
Definition unit_prefix (v : pyval R) : R := match v with VUnit u => uscale u | _ => 1 end.
Definition pair_prefix (a b : pyval R) : R := match a, b with VMulti m, VUnit u => mscale m * uscale u | _, _ => 1 end.
