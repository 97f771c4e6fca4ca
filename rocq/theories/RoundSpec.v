(** * RoundSpec: what it means to compute accurately

    Nothing here mentions the unit model except the record of operations. *)
From Coq Require Import String List ZArith QArith Qcanon Bool Reals Qreals Lia Lra.
From Verif Require Import Py Num UnitsData UnitsStruct Units Expr Rounding.
Local Open Scope R_scope.

(** Every operation is accurate up to the relative error [u]; whole numbers of
    at most 53 bits are floats.  (Binary64 without overflow and underflow:
    u = 2^-53 for the four operations and literals.) *)
Definition near1 (u x y : R) : Prop := Rabs (y - x) <= u * Rabs x.
Definition accurate (u : R) (a : arith) : Prop :=
  (forall x y, near1 u (x + y) (a_add a x y)) /\
  (forall x y, near1 u (x - y) (a_sub a x y)) /\
  (forall x y, near1 u (x * y) (a_mul a x y)) /\
  (forall x y, y <> 0 -> near1 u (x / y) (a_div a x y)) /\
  (forall q, near1 u (Q2R q) (a_lit a q)) /\
  (forall z, (Z.abs z <= 2 ^ 53)%Z -> a_lit a (inject_Z z) = IZR z) /\
  (forall x q, match Rpowq x q with
               | Ok v => exists w, a_pow a x q = Ok w /\ near1 u v w
               | Raise e => a_pow a x q = Raise e
               end).

(** [y] is [x] after at most [n] roundings. *)
Definition within (u : R) (n : nat) (x y : R) : Prop :=
  exists f, (1 - u) ^ n <= f <= / (1 - u) ^ n /\ y = x * f.

(** Two results with the same class and units and values related by [P]. *)
Definition same_but (P : R -> R -> Prop) (r s : pyval R) : Prop :=
  match r, s with
  | VNum x, VNum y => P x y
  | VNone, VNone => True
  | VObj, VObj => True
  | VUnit a, VUnit b => uc a = uc b /\ un a = un b /\ ue a = ue b /\ P (uv a) (uv b)
  | VMulti a, VMulti b => mc a = mc b /\ mtop a = mtop b /\ mbot a = mbot b /\ P (mv a) (mv b)
  | _, _ => False
  end.
(** Outcomes: the same exception, or results as above. *)
Definition same_outcome (P : R -> R -> Prop) (r s : res (pyval R)) : Prop :=
  match r, s with
  | Ok x, Ok y => same_but P x y
  | Raise e, Raise e' => e = e'
  | _, _ => False
  end.

(** Expressions without sums and differences; expressions without differences
    and negations over positive values. *)
Fixpoint no_sums (e : expr) : Prop :=
  match e with
  | ELeaf _ => True
  | EMul a b | EDiv a b => no_sums a /\ no_sums b
  | EPow a _ | ENeg a => no_sums a
  | EAdd _ _ | ESub _ _ => False
  end.
Definition positive (v : pyval R) : Prop :=
  match v with
  | VNum x => 0 < x
  | VUnit u => 0 < uv u
  | VMulti m => 0 < mv m
  | VNone | VObj => True
  end.
Fixpoint only_positive (e : expr) : Prop :=
  match e with
  | ELeaf v => positive v
  | EMul a b | EDiv a b | EAdd a b => only_positive a /\ only_positive b
  | EPow a _ => only_positive a
  | ENeg _ | ESub _ _ => False
  end.
