(** * TotalSpec: totals of lists

    A list is added up from the left, either from its first entry or, as Python's
    built-in sum() does, from the number 0. *)
From Coq Require Import String List Qcanon Reals.
From Verif Require Import Py Num UnitsStruct Units.
Import ListNotations.
Local Open Scope R_scope.

Definition total (x : pyval R) (l : list (pyval R)) : res (pyval R) :=
  fold_left (fun acc y => let* v := acc in py_add v y) l (Ok x).
Definition builtin_sum (l : list (pyval R)) : res (pyval R) := total (VNum 0) l.
Definition sum_of (l : list R) : R := fold_right Rplus 0 l.

(** The same names with the same exponents in the same order. *)
Definition factors (h : list bu) : list (string * Qc) := map (fun x => (bname x, ev (bexp x))) h.
Definition like_multi (a b : multi_obj R) : Prop :=
  factors (mtop a) = factors (mtop b) /\ factors (mbot a) = factors (mbot b).
Definition like_unit (a b : unit_obj R) : Prop := uc a = uc b /\ un a = un b /\ ev (ue a) = ev (ue b).
