(** * AlikeSpec: values that differ only in the Python type of exponents *)
From Coq Require Import String List QArith Qcanon Bool.
From Verif Require Import Py Num UnitsData UnitsStruct Units.

(** The same units in the same order, with exponents equal as numbers: [2] and
    [2.0] are alike. *)
Definition alike_half (l m : half) : Prop := Forall2 (fun x y => bname x = bname y /\ ev (bexp x) = ev (bexp y)) l m.
Definition alike {T} (a b : pyval T) : Prop :=
  match a, b with
  | VNum x, VNum y => x = y
  | VNone, VNone | VObj, VObj => True
  | VUnit u, VUnit w => uc u = uc w /\ uv u = uv w /\ un u = un w /\ ev (ue u) = ev (ue w)
  | VMulti m, VMulti w => mc m = mc w /\ mv m = mv w /\ alike_half (mtop m) (mtop w) /\ alike_half (mbot m) (mbot w)
  | _, _ => False
  end.
(** Both calls return, alike values, or both raise the same exception. *)
Definition alike_result {A} (P : A -> A -> Prop) (x y : res A) : Prop :=
  match x, y with Ok a, Ok b => P a b | Raise e, Raise e' => e = e' | _, _ => False end.

(** The same expression over alike leaves. *)
From Coq Require Import Reals.
From Verif Require Import Expr.
Inductive alike_expr : expr -> expr -> Prop :=
| AE_leaf v w : alike v w -> alike_expr (ELeaf v) (ELeaf w)
| AE_mul a a' b b' : alike_expr a a' -> alike_expr b b' -> alike_expr (EMul a b) (EMul a' b')
| AE_div a a' b b' : alike_expr a a' -> alike_expr b b' -> alike_expr (EDiv a b) (EDiv a' b')
| AE_add a a' b b' : alike_expr a a' -> alike_expr b b' -> alike_expr (EAdd a b) (EAdd a' b')
| AE_sub a a' b b' : alike_expr a a' -> alike_expr b b' -> alike_expr (ESub a b) (ESub a' b')
| AE_pow a a' k k' : alike_expr a a' -> ev k = ev k' -> alike_expr (EPow a k) (EPow a' k')
| AE_neg a a' : alike_expr a a' -> alike_expr (ENeg a) (ENeg a').
