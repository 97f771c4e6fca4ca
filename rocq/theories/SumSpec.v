(** * SumSpec: the error of an expression with sums and differences

    Where values cancel, the error is not small against the result.  It is small
    against the result of the same expression on absolute values in which every
    difference is a sum. *)
From Coq Require Import String List ZArith QArith Qcanon Bool Reals Qreals.
From Verif Require Import Py Num UnitsData UnitsStruct Units Expr Rounding RoundSpec.
Local Open Scope R_scope.

(** Exact arithmetic without signs. *)
Definition Snum : Num R := {|
  nadd := Rplus; nsub := Rplus; nmul := Rmult; ndiv := Rdiv; nopp := fun x => x;
  nq := Q2R; neqb := Reqb; nltb := Rltb; npow := Rpowq |}.
Definition unsigned (v : pyval R) : pyval R :=
  match v with
  | VNum x => VNum (Rabs x)
  | VNone => VNone
  | VObj => VObj
  | VUnit u => VUnit (UO (uc u) (Rabs (uv u)) (un u) (ue u))
  | VMulti m => VMulti (MO (mc m) (Rabs (mv m)) (mtop m) (mbot m))
  end.
Definition number (r : res (pyval R)) : R :=
  match r with
  | Ok (VNum x) => x
  | Ok (VUnit u) => uv u
  | Ok (VMulti m) => mv m
  | _ => 0
  end.
Definition bulk (e : expr) : R := number (@geval R Snum unsigned e).

(** Nothing is divided by, or raised to a negative or broken power, that may have
    lost its digits. *)
Definition natural (q : Qc) : Prop := is_int q = true /\ Qcltb q (qc 0) = false.
Definition firm (e : expr) : Prop := no_sums e \/ only_positive e.
Fixpoint tame (e : expr) : Prop :=
  match e with
  | ELeaf _ => True
  | EMul a b | EAdd a b | ESub a b => tame a /\ tame b
  | EDiv a b => tame a /\ firm b
  | EPow a k => firm a \/ (tame a /\ natural (ev k))
  | ENeg a => tame a
  end.
(** [y] is off by what [n] roundings of [z] can do. *)
Definition off (u : R) (n : nat) (z x y : R) : Prop := Rabs (y - x) <= (/ (1 - u) ^ n - 1) * z.

(** ** Expressions of the library

    heat_transfer/steady_state_conduction.py:58-72 and 120-133 (walls, each
    unknown), mass_transfer/steady_state_diffusion.py:9-55 (the same with
    concentrations), utility/dimensionless.py:9-135. *)
Definition heat_expr (k T1 T2 A d : pyval R) : expr :=
  EMul (EMul (ENeg (ELeaf k)) (ELeaf A)) (EDiv (ESub (ELeaf T2) (ELeaf T1)) (ELeaf d)).
Definition heat_d_expr (k T1 T2 A q : pyval R) : expr :=
  EDiv (EMul (EMul (ENeg (ELeaf k)) (ELeaf A)) (ESub (ELeaf T2) (ELeaf T1))) (ELeaf q).
Definition heat_T2_expr (k T1 A d q : pyval R) : expr :=
  EAdd (EDiv (EMul (ELeaf d) (ELeaf q)) (EMul (ENeg (ELeaf k)) (ELeaf A))) (ELeaf T1).
Definition heat_T1_expr (k T2 A d q : pyval R) : expr :=
  EAdd (ENeg (EDiv (EMul (ELeaf d) (ELeaf q)) (EMul (ENeg (ELeaf k)) (ELeaf A)))) (ELeaf T2).
Definition flux_expr (k T1 T2 d : pyval R) : expr :=
  EMul (ENeg (ELeaf k)) (EDiv (ESub (ELeaf T2) (ELeaf T1)) (ELeaf d)).
Definition flux_d_expr (k T1 T2 q : pyval R) : expr :=
  EDiv (EMul (ENeg (ELeaf k)) (ESub (ELeaf T2) (ELeaf T1))) (ELeaf q).
Definition flux_T2_expr (k T1 d q : pyval R) : expr :=
  EAdd (EDiv (EMul (ELeaf d) (ELeaf q)) (ENeg (ELeaf k))) (ELeaf T1).
Definition flux_T1_expr (k T2 d q : pyval R) : expr :=
  EAdd (ENeg (EDiv (EMul (ELeaf d) (ELeaf q)) (ENeg (ELeaf k)))) (ELeaf T2).
Definition grashof_expr (g beta T2 T1 L rho mu : pyval R) : expr :=
  EDiv (EMul (EMul (EMul (EMul (EPow (ELeaf L) (eint 3)) (EPow (ELeaf rho) (eint 2))) (ELeaf beta)) (ESub (ELeaf T2) (ELeaf T1))) (ELeaf g))
       (EPow (ELeaf mu) (eint 2)).
Definition reynolds_expr (rho v L mu : pyval R) : expr := EDiv (EMul (EMul (ELeaf rho) (ELeaf v)) (ELeaf L)) (ELeaf mu).
Definition over_expr (x y z : pyval R) : expr := EDiv (EMul (ELeaf x) (ELeaf y)) (ELeaf z).
Definition schmidt_expr (mu rho D : pyval R) : expr := EDiv (ELeaf mu) (EMul (ELeaf rho) (ELeaf D)).
Definition gretz_expr (diameter length cp l rho v k : pyval R) : expr :=
  EDiv (EMul (EMul (EMul (EMul (ELeaf cp) (ELeaf diameter)) (ELeaf l)) (ELeaf rho)) (ELeaf v)) (EMul (ELeaf k) (ELeaf length)).

(** [run] and the arithmetic [a] agree on the expression up to what its roundings
    can do to its absolute values, or to its result. *)
Definition bounded (u : R) (a : arith) (run : res (pyval R)) (e : expr) : Prop :=
  same_outcome (off u (roundings e) (bulk e)) run (feval a e).
Definition sharp (u : R) (a : arith) (run : res (pyval R)) (e : expr) : Prop :=
  same_outcome (within u (roundings e)) run (feval a e).
