(** * Num: the numbers that carry values

    The model is written once, over any [Num T].  Theorems are stated for the
    instance on Coq's reals (exact arithmetic: binary64 rounding, overflow, inf
    and nan are not modelled); the instance on rationals makes the same model
    executable, so that the repository's own tests can be replayed on it. *)
From Coq Require Import String List ZArith QArith Qcanon Bool Reals Qreals Lia Lra.
From Verif Require Import Py.

Class Num (T : Type) := {
  nadd : T -> T -> T;
  nsub : T -> T -> T;
  nmul : T -> T -> T;
  ndiv : T -> T -> T;            (* only applied to a nonzero divisor, see [pydiv] *)
  nopp : T -> T;
  nq   : Q -> T;                 (* numeric literals *)
  neqb : T -> T -> bool;
  nltb : T -> T -> bool;
  npow : T -> Qc -> res T        (* Python x ** q *)
}.

(** Python [x / y]. *)
Definition pydiv {T} `{Num T} (x y : T) : res T :=
  if neqb y (nq 0) then Raise EZeroDivisionError else Ok (ndiv x y).

(** ** Reals *)
Definition QcR (q : Qc) : R := Q2R (this q).

Definition Reqb (x y : R) : bool := if Req_EM_T x y then true else false.
Definition Rltb (x y : R) : bool := if Rlt_dec x y then true else false.

(** Python [x ** q] on floats, exactly: integer powers by repeated
    multiplication (0 to a negative power raises), other powers by [Rpower] on
    positive bases; a negative base with a fractional power is a complex number
    in Python and [Unmodelled] here. *)
Definition Rpowq (x : R) (q : Qc) : res R :=
  if is_int q then
    if Reqb x 0 && Qcltb q (qc 0) then Raise EZeroDivisionError
    else Ok (powerRZ x (Qnum (this q)))
  else if Rltb 0 x then Ok (Rpower x (QcR q))
  else if Reqb x 0 then
    if Qcltb q (qc 0) then Raise EZeroDivisionError else Ok 0%R
  else Raise Unmodelled.

#[global] Instance Rnum : Num R := {|
  nadd := Rplus; nsub := Rminus; nmul := Rmult; ndiv := Rdiv; nopp := Ropp;
  nq := Q2R; neqb := Reqb; nltb := Rltb; npow := Rpowq |}.

(** ** Rationals (executable) *)
Definition Qpowq (x : Q) (q : Qc) : res Q :=
  if is_int q then
    if Qeq_bool x 0 && Qcltb q (qc 0) then Raise EZeroDivisionError
    else Ok (Qred (Qpower x (Qnum (this q))))
  else if Qeq_bool x 1 then Ok 1%Q
  else if Qeq_bool x 0 then
    if Qcltb q (qc 0) then Raise EZeroDivisionError else Ok 0%Q
  else Raise Unmodelled.

#[global] Instance Qnum_inst : Num Q := {|
  nadd := fun x y => Qred (x + y); nsub := fun x y => Qred (x - y);
  nmul := fun x y => Qred (x * y); ndiv := fun x y => Qred (x / y);
  nopp := fun x => Qred (- x); nq := Qred; neqb := Qeq_bool;
  nltb := fun x y => negb (Qle_bool y x); npow := Qpowq |}.
