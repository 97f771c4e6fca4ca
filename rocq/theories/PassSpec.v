(** * PassSpec: which derived units a single pass leaves alone

    Of every run of adjacent derived units the second, fourth, … is passed over. *)
From Coq Require Import String List.
From Verif Require Import Py Num UnitsData UnitsStruct Spec.
Import ListNotations.
Local Open Scope string_scope.

Definition is_derived (x : bu) : bool := if in_dec string_dec (bname x) derived_names then true else false.
Definition not_J (x : bu) : bool := if string_dec (bname x) "J" then false else true.
Fixpoint skipped (l : half) : half :=
  match l with
  | nil => nil
  | x :: l' =>
      if is_derived x then
        match l' with
        | nil => nil
        | y :: l'' => if is_derived y then y :: skipped l'' else skipped l''
        end
      else skipped l'
  end.
