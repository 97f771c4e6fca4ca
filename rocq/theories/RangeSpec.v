(** * RangeSpec: numbers that binary64 can hold

    Nothing here mentions the unit model except the shapes of results. *)
From Coq Require Import String List ZArith QArith Qcanon Bool Reals Qreals Lia Lra.
From Coq Require Import Floats.SpecFloat.
From Verif Require Import Py Num UnitsData UnitsStruct Units Expr RoundSpec.
Local Open Scope R_scope.

(** The binary64 numbers, and the number each of them is. *)
Definition finite64 (x : spec_float) : Prop :=
  match x with
  | S754_zero _ => True
  | S754_finite _ m e => bounded 53 1024 m e = true
  | S754_infinity _ | S754_nan => False
  end.
Definition SFR (x : spec_float) : R :=
  match x with
  | S754_finite s m e => (if s then -1 else 1) * (IZR (Zpos m) * powerRZ 2 e)
  | _ => 0
  end.
(** Zero, or between 2^-k and 2^k in size. *)
Definition sized (k : Z) (x : R) : Prop := x = 0 \/ powerRZ 2 (- k) <= Rabs x <= powerRZ 2 k.

(** [p] computes powers with exponents in [allowed] up to the relative error
    [u], as long as the power is zero or between 2^-1010 and 2^1010, and raises
    where the exact power does. *)
Definition pow_good (u : R) (allowed : Qc -> bool) (p : spec_float -> Qc -> res spec_float) : Prop :=
  forall y q, finite64 y -> allowed q = true ->
  match Rpowq (SFR y) q with
  | Ok v => sized 1010 v -> exists w, p y q = Ok w /\ finite64 w /\ near1 u v (SFR w)
  | Raise e => p y q = Raise e
  end.

(** Results of the same class with the same units, the second a binary64
    number, the values related by [P]. *)
Definition like_value (P : R -> R -> Prop) (x : R) (y : spec_float) : Prop := finite64 y /\ P x (SFR y).
Definition like (P : R -> R -> Prop) (r : res (pyval R)) (s : res (pyval spec_float)) : Prop :=
  match r, s with
  | Ok (VNum x), Ok (VNum y) => like_value P x y
  | Ok VNone, Ok VNone => True
  | Ok VObj, Ok VObj => True
  | Ok (VUnit a), Ok (VUnit b) => uc a = uc b /\ un a = un b /\ ue a = ue b /\ like_value P (uv a) (uv b)
  | Ok (VMulti a), Ok (VMulti b) => mc a = mc b /\ mtop a = mtop b /\ mbot a = mbot b /\ like_value P (mv a) (mv b)
  | Raise e, Raise e' => e = e'
  | _, _ => False
  end.

(** Every number in an expression satisfies [P]. *)
Fixpoint leaves (P : R -> Prop) (e : expr) : Prop :=
  match e with
  | ELeaf (VNum x) => P x
  | ELeaf (VUnit u) => P (uv u)
  | ELeaf (VMulti m) => P (mv m)
  | ELeaf _ => True
  | EMul a b | EDiv a b | EAdd a b | ESub a b => leaves P a /\ leaves P b
  | EPow a _ | ENeg a => leaves P a
  end.
(** [enc x] is a binary64 number equal to [x], of a size given by [sz]. *)
Definition held (enc : R -> spec_float) (sz : R -> Z) (x : R) : Prop := finite64 (enc x) /\ SFR (enc x) = x /\ sized (sz x) x.
