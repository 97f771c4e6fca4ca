(** * UtilitySpec: subsequences and well-nested parentheses *)
From Coq Require Import String Ascii List Bool Arith.
From Verif Require Import Py.
Import ListNotations.
Local Open Scope string_scope.
Local Open Scope list_scope.

(** [sub c l] : c is l with some elements left out. *)
Inductive sub {A} : list A -> list A -> Prop :=
| sub_nil : sub nil nil
| sub_keep x c l : sub c l -> sub (x :: c) (x :: l)
| sub_skip x c l : sub c l -> sub c (x :: l).

(** The number of times a character occurs. *)
Fixpoint times (c : ascii) (s : string) : nat :=
  match s with EmptyString => O | String d r => (if Ascii.eqb c d then 1 else 0) + times c r end.
(** Every closing parenthesis closes one before it, every opening one is closed,
    and there is nothing else. *)
Definition well_nested (s : string) : Prop :=
  (forall p r, s = p +++ r -> times ")" p <= times "(" p) /\ times "(" s = times ")" s /\
  times "(" s + times ")" s = String.length s.
(** Lists of positions: by length, those of the same length in dictionary order. *)
Fixpoint dict_before (a b : list nat) : Prop :=
  match a, b with
  | x :: a', y :: b' => x < y \/ (x = y /\ dict_before a' b')
  | _, _ => False
  end.
Definition listed_before (a b : list nat) : Prop :=
  List.length a < List.length b \/ (List.length a = List.length b /\ dict_before a b).
