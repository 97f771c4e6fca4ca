(** * SumRange: how large the numbers of a run with sums and differences can get

    As in Range.v, of the values without signs: a difference counts as a sum. *)
From Coq Require Import String List ZArith QArith Qcanon Bool Reals.
From Coq Require Import Floats.SpecFloat.
From Verif Require Import Py Num UnitsData UnitsStruct Units Expr Rounding RoundSpec RangeSpec SumSpec Range.

Definition Tnum (allowed : Qc -> bool) : Num size := {|
  nadd := @nadd size (Range.Snum allowed); nsub := @nadd size (Range.Snum allowed);
  nmul := s_prod; ndiv := s_prod; nopp := fun x => x;
  nq := @nq size (Range.Snum allowed);
  neqb := @neqb size (Range.Snum allowed);
  nltb := @nltb size (Range.Snum allowed);
  npow := @npow size (Range.Snum allowed) |}.
Definition fits_any (allowed : Qc -> bool) (sz : R -> Z) (e : expr) : option nat :=
  known pv_size (@geval size (Tnum allowed) (pv_map (fun x => guard 0 (sz x))) e).

(** Nothing is divided by or raised that may have lost its digits. *)
Fixpoint steady (e : expr) : Prop :=
  match e with
  | ELeaf _ => True
  | EMul a b | EAdd a b | ESub a b => steady a /\ steady b
  | EDiv a b => steady a /\ firm b
  | EPow a _ => firm a
  | ENeg a => steady a
  end.
(** If the numbers of [e] are held and its run fits, binary64 computes it up to
    what the roundings can do to its absolute values. *)
Definition computed (u : R) (allowed : Qc -> bool) (p : spec_float -> Qc -> res spec_float) (enc : R -> spec_float) (sz : R -> Z)
    (run : res (pyval R)) (e : expr) : Prop :=
  leaves (held enc sz) e -> forall n, fits_any allowed sz e = Some n -> like (off u n (bulk e)) run (beval p enc e).
