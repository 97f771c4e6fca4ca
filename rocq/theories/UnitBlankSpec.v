(** * UnitBlankSpec: unit strings with blanks *)
From Coq Require Import String Ascii List QArith Qcanon Bool.
From Verif Require Import Py TextSpec.
Import ListNotations.
Local Open Scope string_scope.
Local Open Scope list_scope.

(** A factor whose exponent, if there is one, is surrounded by blanks. *)
Definition wide_factor := (string * option (string * numeral * string))%type.
Definition narrow (f : wide_factor) : factor := (fst f, match snd f with None => None | Some (_, n, _) => Some n end).
Definition wide_text (f : wide_factor) : string :=
  match snd f with None => fst f | Some (a, n, b) => fst f +++ "^" +++ a +++ num_text n +++ b end.
Definition wide_ok (f : wide_factor) : Prop :=
  factor_ok (narrow f) /\ match snd f with None => True | Some (a, _, b) => all_blank a = true /\ all_blank b = true end.
(** Blanks around both halves. *)
Definition wide_unit (a b c d : string) (top bot : list wide_factor) : string :=
  a +++ stars (map wide_text top) +++ b +++
  (match bot with nil => "" | _ => "/" +++ c +++ stars (map wide_text bot) +++ d end).
