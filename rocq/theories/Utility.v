(** * Utility: functions of the package that nothing else in it calls *)
From Coq Require Import String Ascii List Bool Arith.
From Verif Require Import Py.
Import ListNotations.
Local Open Scope string_scope.
Local Open Scope list_scope.

(** itertools.combinations(l, r), as lists. *)
Fixpoint combinations {A} (r : nat) (l : list A) : list (list A) :=
  match r, l with
  | O, _ => [nil]
  | S _, nil => nil
  | S r', x :: l' => map (cons x) (combinations r' l') ++ combinations r l'
  end.
(** powerset, units/_utility.py:6-8. *)
Definition powerset {A} (l : list A) : list (list A) :=
  flat_map (fun r => combinations r l) (seq 1 (List.length l)).

(** equation.replace("()", ""): from the left, without overlaps. *)
Fixpoint drop_pairs (s : string) : string :=
  match s with
  | String "("%char (String ")"%char r) => drop_pairs r
  | String c r => String c (drop_pairs r)
  | EmptyString => EmptyString
  end.
(** _check_valid_parenthese, reactions/balance.py:21-26; [char_list] has one
    element. *)
Fixpoint check_loop (fuel : nat) (s : string) : res bool :=
  if str_in "()" s then
    match fuel with O => Raise OutOfFuel | S f => check_loop f (drop_pairs s) end
  else Ok (String.eqb s "").
Definition check_valid_parentheses (s : string) : res bool := check_loop (String.length s) s.
