(** * StaticSpec: the unit of a value, whatever its number *)
From Coq Require Import String List QArith Qcanon Bool.
From Verif Require Import Py Num UnitsData UnitsStruct Units.

(** The same class and the same unit; the numbers are arbitrary and may even be
    of different number types. *)
Definition same_unit {T T'} (a : pyval T) (b : pyval T') : Prop :=
  match a, b with
  | VNum _, VNum _ | VNone, VNone | VObj, VObj => True
  | VUnit u, VUnit w => uc u = uc w /\ un u = un w /\ ue u = ue w
  | VMulti m, VMulti w => mc m = mc w /\ mtop m = mtop w /\ mbot m = mbot w
  | _, _ => False
  end.
(** If both calls return, the results have the same unit. *)
Definition same_if_both {T T'} (x : res (pyval T)) (y : res (pyval T')) : Prop :=
  match x, y with Ok a, Ok b => same_unit a b | _, _ => True end.
(** Both calls return the same unit, or both raise the same exception. *)
Definition same_outcome {T T'} (x : res (pyval T)) (y : res (pyval T')) : Prop :=
  match x, y with Ok a, Ok b => same_unit a b | Raise e, Raise e' => e = e' | _, _ => False end.
(** As above, except that either may divide by zero. *)
Definition same_but_zero {T T'} (x : res (pyval T)) (y : res (pyval T')) : Prop :=
  same_outcome x y \/ x = Raise EZeroDivisionError \/ y = Raise EZeroDivisionError.

(** Expressions over any number type. *)
Inductive binop := OMul | ODiv | OAdd | OSub.
Inductive term (T : Type) :=
| TLeaf (v : pyval T)
| TBin (o : binop) (a b : term T)
| TPow (a : term T) (k : expo)
| TNeg (a : term T).
Arguments TLeaf {T}. Arguments TBin {T}. Arguments TPow {T}. Arguments TNeg {T}.
Definition binop_run {T} `{Num T} (o : binop) : pyval T -> pyval T -> res (pyval T) :=
  match o with OMul => py_mul | ODiv => py_div | OAdd => py_add | OSub => py_sub end.
Fixpoint run {T} `{Num T} (e : term T) : res (pyval T) :=
  match e with
  | TLeaf v => Ok v
  | TBin o a b => let* x := run a in let* y := run b in binop_run o x y
  | TPow a k => let* x := run a in py_pow x k
  | TNeg a => let* x := run a in py_neg x
  end.
Inductive same_units {T T'} : term T -> term T' -> Prop :=
| SU_leaf v w : same_unit v w -> same_units (TLeaf v) (TLeaf w)
| SU_bin o a b a' b' : same_units a a' -> same_units b b' -> same_units (TBin o a b) (TBin o a' b')
| SU_pow a a' k : same_units a a' -> same_units (TPow a k) (TPow a' k)
| SU_neg a a' : same_units a a' -> same_units (TNeg a) (TNeg a').
