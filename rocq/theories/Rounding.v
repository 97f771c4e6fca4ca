(** * Rounding: the model in inexact arithmetic

    The model of Units.v is written over any [Num T].  Besides the exact instance
    on the reals, this file gives it
    - the arithmetic of floats: every operation and every literal is some
      function of the exact result ([arith], an arbitrary one);
    - binary64 itself, on Coq's [spec_float] (executable);
    - a count of the roundings of a run. *)
From Coq Require Import String List ZArith QArith Qcanon Bool Reals Qreals Lia Lra.
From Coq Require Import Floats.SpecFloat.
From Verif Require Import Py Num UnitsData UnitsStruct Units Expr.
Import ListNotations.
Local Open Scope string_scope.
Local Open Scope list_scope.

(** ** An arithmetic on reals

    Python's float operations: sum, difference, product, quotient of two floats,
    the float of a decimal literal, and [x ** q].  Negation is exact. *)
Record arith := Arith {
  a_add : R -> R -> R;
  a_sub : R -> R -> R;
  a_mul : R -> R -> R;
  a_div : R -> R -> R;
  a_lit : Q -> R;
  a_pow : R -> Qc -> res R
}.
Definition Fnum (a : arith) : Num R := {|
  nadd := a_add a; nsub := a_sub a; nmul := a_mul a; ndiv := a_div a; nopp := Ropp;
  nq := a_lit a; neqb := Reqb; nltb := Rltb; npow := a_pow a |}.

(** ** Counting roundings

    The number of roundings in the history of a value: one per operation, none
    for a whole literal of at most 53 bits; a power repeats the roundings of its
    base as often as its exponent says, rounded up. *)
Definition whole (q : Q) : bool := Pos.eqb (Qden q) 1 && (Z.abs (Qnum q) <=? 2 ^ 53)%Z.
Definition repeats (q : Qc) : nat := Z.to_nat (Qround.Qceiling (Qabs.Qabs (this q))).
Definition Cnum : Num nat := {|
  nadd := fun x y => S (Nat.max x y); nsub := fun x y => S (Nat.max x y);
  nmul := fun x y => S (x + y); ndiv := fun x y => S (x + y); nopp := fun x => x;
  nq := fun q => if whole q then O else 1%nat;
  neqb := fun _ _ => false; nltb := fun _ _ => false;
  npow := fun x q => Ok (S (repeats q * x)) |}.

(** ** Binary64

    Python's floats: precision 53, exponents up to 1024, round to nearest even.
    A literal n/d is the quotient of two whole numbers, correctly rounded.
    [x ** q] is the pow of the C library, which no standard specifies: it is a
    parameter of [Bpow].  [f_pow] is the one that rounds whole powers correctly;
    other powers and results that overflow are not modelled in it. *)
Definition f_int (z : Z) : spec_float := binary_normalize 53 1024 z 0 false.
Definition f_quot (s : bool) (m e n f : Z) : spec_float :=
  let '(q, e', l) := SFdiv_core_binary 53 1024 m e n f in binary_round_aux 53 1024 s q e' l.
Definition f_lit (q : Q) : spec_float :=
  if Pos.eqb (Qden q) 1 then f_int (Qnum q)
  else match Qnum q with
       | Z0 => S754_zero false
       | Zpos n => f_quot false (Zpos n) 0 (Zpos (Qden q)) 0
       | Zneg n => f_quot true (Zpos n) 0 (Zpos (Qden q)) 0
       end.
Definition f_powz (x : spec_float) (k : Z) : res spec_float :=
  match k, x with
  | Z0, _ => Ok (f_int 1)
  | Zneg _, S754_zero _ => Raise EZeroDivisionError
  | Zpos _, S754_zero s => Ok (S754_zero (s && Z.odd k))
  | Zpos p, S754_finite s m e => Ok (binary_round 53 1024 (s && Z.odd k) (Pos.pow m p) (e * k))
  | Zneg p, S754_finite s m e => Ok (f_quot (s && Z.odd k) 1 0 (Zpos (Pos.pow m p)) (e * Zpos p))
  | _, _ => Raise Unmodelled
  end.
Definition f_pow (x : spec_float) (q : Qc) : res spec_float :=
  if is_int q then
    let* y := f_powz x (Qnum (this q)) in
    match y with S754_infinity _ => Raise Unmodelled | _ => Ok y end
  else Raise Unmodelled.
Definition Bpow (p : spec_float -> Qc -> res spec_float) : Num spec_float := {|
  nadd := SFadd 53 1024; nsub := SFsub 53 1024; nmul := SFmul 53 1024; ndiv := SFdiv 53 1024; nopp := SFopp;
  nq := f_lit; neqb := SFeqb; nltb := SFltb; npow := p |}.
Definition Bnum : Num spec_float := Bpow f_pow.

(** ** Expressions in any arithmetic *)
Section Generic.
Context {T : Type} {N : Num T}.
Variable leaf : pyval R -> pyval T.
Fixpoint geval (e : expr) : res (pyval T) :=
  match e with
  | ELeaf v => Ok (leaf v)
  | EMul a b => let* x := geval a in let* y := geval b in py_mul x y
  | EDiv a b => let* x := geval a in let* y := geval b in py_div x y
  | EAdd a b => let* x := geval a in let* y := geval b in py_add x y
  | ESub a b => let* x := geval a in let* y := geval b in py_sub x y
  | EPow a k => let* x := geval a in py_pow x k
  | ENeg a => let* x := geval a in py_neg x
  end.
End Generic.

(** A value with no roundings so far. *)
Definition fresh (v : pyval R) : pyval nat :=
  match v with
  | VNum _ => VNum O
  | VNone => VNone
  | VObj => VObj
  | VUnit u => VUnit (UO (uc u) O (un u) (ue u))
  | VMulti m => VMulti (MO (mc m) O (mtop m) (mbot m))
  end.

(** The expression in the arithmetic [a], and the number of roundings. *)
Definition feval (a : arith) (e : expr) : res (pyval R) := @geval R (Fnum a) (fun v => v) e.
Definition count (r : res (pyval nat)) : nat :=
  match r with
  | Ok (VNum n) => n
  | Ok (VUnit u) => uv u
  | Ok (VMulti m) => mv m
  | _ => O
  end.
Definition roundings (e : expr) : nat := count (@geval nat Cnum fresh e).
(** The same for conversions. *)
Definition fconvert (a : arith) (m : multi_obj R) (target : string) : res (multi_obj R) :=
  @multi_convert_to R (Fnum a) (@tables0 R (Fnum a)) m target.
Definition fconvert_unit (a : arith) (u : unit_obj R) (target : string) : res (unit_obj R) :=
  @unit_convert_to R (Fnum a) (@tables0 R (Fnum a)) u target.
Definition convert_roundings (m : multi_obj R) (target : string) : nat :=
  match @multi_convert_to nat Cnum (@tables0 nat Cnum) (MO (mc m) O (mtop m) (mbot m)) target with
  | Ok x => mv x
  | Raise _ => O
  end.
Definition convert_unit_roundings (u : unit_obj R) (target : string) : nat :=
  match @unit_convert_to nat Cnum (@tables0 nat Cnum) (UO (uc u) O (un u) (ue u)) target with
  | Ok x => uv x
  | Raise _ => O
  end.
