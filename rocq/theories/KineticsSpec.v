(** * What it means to fit a straight line, and to follow a rate law *)
From Coq Require Import List ZArith QArith Qcanon Bool Reals.
From Verif Require Import Py Num Correlations.
Import ListNotations.
Local Open Scope R_scope.

(** The sum of the squared distances between the points and the line [a + b t]. *)
Definition sse (t y : list R) (a b : R) : R :=
  fold_right (fun p s => (snd p - (a + b * fst p)) ^ 2 + s) 0 (combine t y).
(** [r] is the coefficient of determination of the least-squares line: what the best
    line leaves unexplained is 1 - r of what the best constant leaves. *)
Definition determines (t y : list R) (r : R) : Prop :=
  exists a b m, (forall a' b', sse t y a b <= sse t y a' b') /\ (forall m', sse t y m 0 <= sse t y m' 0) /\
    0 < sse t y m 0 /\ sse t y a b = (1 - r) * sse t y m 0.
(** The integrated rate law of order [n] for a single reactant: ln x, or x^(1-n), is
    linear in time and not constant. *)
Definition law (n : Qc) (x : R) : R := if Qc_eq_dec n (Q2Qc 1) then ln x else Rpower x (1 - QcR n).
Definition follows (n : Qc) (t x : list R) : Prop :=
  exists c s, s <> 0 /\ Forall2 (fun t x => 0 < x /\ law n x = c + s * t) t x.
Definition spread (t : list R) : Prop := exists a b, In a t /\ In b t /\ a <> b.
(** The data each round sees, as the code has it: every round transforms what the round
    before left. *)
Fixpoint seen (orders : list Qc) (data : list datum) : list (Qc * list datum) :=
  match orders with
  | nil => nil
  | i :: orders => match transform i data with Ok d => (i, d) :: seen orders d | Raise _ => nil end
  end.
