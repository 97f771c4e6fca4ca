(** * FuncCalls: what the functions of the module math are called with

    In a run with the arithmetic [a] and the functions [m]. *)
From Coq Require Import String List ZArith QArith Qcanon Bool Reals.
From Verif Require Import Py Num UnitsData UnitsStruct Units Expr Rounding Formulas RoundSpec Func FuncSpec.
Import ListNotations.
Local Open Scope R_scope.

Inductive fname := NExp | NLog | NSin | NErf.
Definition computed (m : funs) (f : fname) : R -> R :=
  match f with NExp => m_exp m | NLog => m_log m | NSin => m_sin m | NErf => m_erf m end.
Definition meant (erf : R -> R) (f : fname) : R -> R :=
  match f with NExp => exp | NLog => ln | NSin => sin | NErf => erf end.

Section Calls.
Variable a : arith.
Variable m : funs.
Variable P : fname -> R -> Prop.
Definition runs (env : list (pyval R)) (t : term) : res (pyval R) := @teval R (Fnum a) (Ffn m) (fun v => v) env t.
Definition on_result (r : res (pyval R)) (Q : pyval R -> Prop) : Prop := match r with Ok x => Q x | Raise _ => True end.
(** log raises before it is evaluated unless its argument is positive. *)
Definition call (f : fname) (v : pyval R) : Prop :=
  match v with VNum x => match f with NLog => 0 < x -> P f x | _ => P f x end | _ => True end.
(** Every call of the run satisfies [P]; what follows an exception is not run. *)
Fixpoint calls (env : list (pyval R)) (t : term) : Prop :=
  match t with
  | TLeaf _ | TPi | TVar _ => True
  | TLet s t => calls env s /\ on_result (runs env s) (fun x => calls (x :: env) t)
  | TMul s t | TDiv s t | TAdd s t | TSub s t => calls env s /\ on_result (runs env s) (fun _ => calls env t)
  | TPow s _ | TNeg s => calls env s
  | TExp s => calls env s /\ on_result (runs env s) (call NExp)
  | TLog s => calls env s /\ on_result (runs env s) (call NLog)
  | TSin s => calls env s /\ on_result (runs env s) (call NSin)
  | TErf s => calls env s /\ on_result (runs env s) (call NErf)
  end.
End Calls.
(** Within [v] of the truth, and an argument of exp that is not positive. *)
Definition accurate_at (v : R) (erf : R -> R) (m : funs) (f : fname) (x : R) : Prop := near1 v (meant erf f x) (computed m f x).
Definition exp_below_0 (f : fname) (x : R) : Prop := f = NExp -> x <= 0.
Definition not_negative (v : pyval R) : Prop :=
  match v with VNum x => 0 <= x | VUnit u => 0 <= uv u | VMulti m => 0 <= mv m | VNone | VObj => True end.
