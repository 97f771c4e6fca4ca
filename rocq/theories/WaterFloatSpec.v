(** * WaterFloatSpec: what the water properties in binary64 should be *)
From Coq Require Import String List ZArith Reals.
From Coq Require Import Floats.SpecFloat.
From Verif Require Import Water WaterFloat RangeSpec.
Local Open Scope R_scope.

(** A text is the same; a number is finite and off by at most [u] of the exact one. *)
Definition close_to (u : R) (a : wv) (b : fwv) : Prop :=
  match a, b with
  | WN x, FN y => finite64 y /\ Rabs (SFR y - x) <= u * Rabs x
  | WT s, FT t => s = t
  | _, _ => False
  end.
(** The rows of the table used for the temperature [t]: those around it, or its own. *)
Definition rows_around (t : R) (lo hi : Z) : Prop :=
  (exists n, (lo = 275 + 10 * n)%Z) /\
  ((t = IZR lo /\ hi = lo) \/ (IZR lo < t < IZR hi /\ hi = (lo + 10)%Z)).
