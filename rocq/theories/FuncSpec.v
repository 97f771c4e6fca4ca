(** * FuncSpec: the error of a formula, carried along

    A number and a bound of its error, [(x, d)], go through the operations
    together; what comes out bounds the error of the float. *)
From Coq Require Import String List ZArith QArith Qcanon Bool Reals Qreals.
From Verif Require Import Py Num UnitsData UnitsStruct Units Expr Rounding RoundSpec SumSpec Func.
Import ListNotations.
Local Open Scope R_scope.

(** The functions of the module math are accurate up to the relative error [v];
    erf (or erfc) is a function that never grows faster than [L]. *)
Definition accurate_fun (u v L : R) (erf : R -> R) (m : funs) : Prop :=
  near1 u PI (m_pi m) /\
  (forall x, near1 v (exp x) (m_exp m x)) /\
  (forall x, 0 < x -> near1 v (ln x) (m_log m x)) /\
  (forall x, near1 v (sin x) (m_sin m x)) /\
  (forall x, near1 v (erf x) (m_erf m x)) /\
  (forall x y, Rabs (erf y - erf x) <= L * Rabs (y - x)).

(** One more error, relative [w], on a number [x] known up to [d]. *)
Definition more (w x d : R) : R * R := (x, d + w * (Rabs x + d)).
Definition may_be_equal (p q : R * R) : bool := if Rle_dec (Rabs (fst p - fst q)) (snd p + snd q) then true else false.
Section Errors.
Variables u v L : R.
Variable erf : R -> R.
Definition e_add (p q : R * R) : R * R := more u (fst p + fst q) (snd p + snd q).
Definition e_sub (p q : R * R) : R * R := more u (fst p - fst q) (snd p + snd q).
Definition e_mul (p q : R * R) : R * R :=
  more u (fst p * fst q) ((Rabs (fst p) + snd p) * (Rabs (fst q) + snd q) - Rabs (fst p) * Rabs (fst q)).
(** The divisor may not be 0. *)
Definition e_div (p q : R * R) : R * R :=
  more u (fst p / fst q) ((Rabs (fst p) + snd p) / (Rabs (fst q) - snd q) - Rabs (fst p) / Rabs (fst q)).
(** The base is known exactly, or is not 0. *)
Definition e_pow (p : R * R) (q : Qc) : res (R * R) :=
  let* x := Rpowq (fst p) q in
  if Reqb (snd p) 0 then Ok (more u x 0)
  else if Rltb (snd p) (Rabs (fst p)) then Ok (more u x (Rabs x * (/ (1 - snd p / Rabs (fst p)) ^ repeats q - 1)))
  else Raise EZeroDivisionError.
Definition Enum : Num (R * R) := {|
  nadd := e_add; nsub := e_sub; nmul := e_mul; ndiv := e_div;
  nopp := fun p => (- fst p, snd p);
  nq := fun q => (Q2R q, if whole q then 0 else u * Rabs (Q2R q));
  neqb := may_be_equal; nltb := fun p q => Rltb (fst p) (fst q);
  npow := e_pow |}.
Definition Efn : Fn (R * R) := {|
  fpi := (PI, u * PI);
  fexp := fun p => more v (exp (fst p)) (exp (fst p) * (exp (snd p) - 1));
  flog := fun p => if Rltb (snd p) (fst p) then Ok (more v (ln (fst p)) (- ln (1 - snd p / fst p))) else Raise EValueError;
  fsin := fun p => more v (sin (fst p)) (snd p);
  ferf := fun p => more v (erf (fst p)) (L * snd p) |}.
Definition eleaf (x : pyval R) : pyval (R * R) :=
  match x with
  | VNum r => VNum (r, 0)
  | VNone => VNone
  | VObj => VObj
  | VUnit a => VUnit (UO (uc a) (uv a, 0) (un a) (ue a))
  | VMulti m => VMulti (MO (mc m) (mv m, 0) (mtop m) (mbot m))
  end.
(** The bound of a formula: [None] where a divisor or the argument of log may
    vanish. *)
Definition error_bound (t : term) : option R :=
  match @teval _ Enum Efn eleaf [] t with
  | Ok (VNum p) => Some (snd p)
  | Ok (VUnit a) => Some (snd (uv a))
  | Ok (VMulti m) => Some (snd (mv m))
  | Ok _ => Some 0
  | Raise _ => None
  end.
End Errors.
(** Numbers that differ by at most [d]. *)
Definition apart (d x y : R) : Prop := Rabs (y - x) <= d.
