(** * FuncCount: the roundings of a formula in which exp or log occurs as a factor

    The values of exp, of log and of pi are variables, given with the number of
    roundings they count for; what remains is a product. *)
From Coq Require Import String List ZArith QArith Qcanon Bool Reals.
From Verif Require Import Py Num UnitsData UnitsStruct Units Expr Rounding Formulas Func.
Import ListNotations.
Local Open Scope R_scope.

(** Functions do not occur in what is left; these are never used. *)
Definition Cfn : Fn nat := {| fpi := O; fexp := S; flog := fun n => Ok (S n); fsin := S; ferf := S |}.
Definition roundings_from (env : list (pyval nat)) (t : term) : nat := count (@teval nat Cnum Cfn fresh env t).
(** A pulse; the variables are the exponential and pi. *)
Definition spread_shape (D time : pyval R) : term := TMul (TMul (TMul (num 4) (TVar 3)) (TLeaf D)) (TLeaf time).
Definition pulse_shape (m bottom : term) : term :=
  TLet m (TLet (TMul (TVar 0) (TVar 1)) (TLet bottom (TDiv (TVar 1) (TVar 0)))).
Definition three_d_shape (initial_mass D time : pyval R) (shape : string) : term :=
  pulse_shape (pulse_mass initial_mass shape) (TPow (spread_shape D time) (eflt (Q2Qc (3 # 2)))).
Definition two_d_shape (initial_mass L D time : pyval R) : term :=
  pulse_shape (TDiv (TLeaf initial_mass) (TLeaf L)) (spread_shape D time).
Definition one_d_shape (initial_mass area D time : pyval R) : term :=
  pulse_shape (TDiv (TLeaf initial_mass) (TLeaf area)) (TPow (spread_shape D time) half_).
(** A pipe; the variables are pi, the difference and the logarithm. *)
Definition pipe_shape (k length : pyval R) : term :=
  TMul (TMul (TMul (TMul (num (-2)) (TVar 0)) (TLeaf length)) (TLeaf k)) (TDiv (TVar 1) (TVar 2)).
(** A value that was rounded once. *)
Definition once (v : pyval R) : pyval nat :=
  match v with
  | VNum _ => VNum 1%nat
  | VNone => VNone
  | VObj => VObj
  | VUnit u => VUnit (UO (uc u) 1%nat (un u) (ue u))
  | VMulti m => VMulti (MO (mc m) 1%nat (mtop m) (mbot m))
  end.
