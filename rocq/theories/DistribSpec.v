(** * DistribSpec: sums and differences *)
From Coq Require Import Reals Bool.
From Verif Require Import Py Num Units.
Definition plus_or_minus (minus : bool) (a b : pyval R) : res (pyval R) := if minus then py_sub a b else py_add a b.
(** What a sum is multiplied or divided by. *)
Definition operand (o : pyval R) : Prop := match o with VNum _ | VUnit _ | VMulti _ => True | _ => False end.
(** Two MultiUnits, or two Units the constructor made. *)
Definition summands (a b : pyval R) : Prop :=
  match a, b with
  | VMulti _, VMulti _ => True
  | VUnit u, VUnit v => (exists x n e, mk_unit (uc u) x n e = Ok u) /\ (exists x n e, mk_unit (uc v) x n e = Ok v)
  | _, _ => False
  end.
(** Two Units of different classes, and a Unit of the same name and of the class
    of one of them. *)
Definition clash (a b o : pyval R) : Prop :=
  match a, b, o with
  | VUnit u, VUnit v, VUnit w => uc u <> uc v /\ un w = un u /\ (uc w = uc u \/ uc w = uc v)
  | _, _, _ => False
  end.
