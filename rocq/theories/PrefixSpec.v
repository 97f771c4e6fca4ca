(** * PrefixSpec: what prefix removal leaves of a name, whatever the name

    The five letters that units/_utility.py:26-48 takes for prefixes are taken off
    every name of two or more letters but min, cP, mol and kg.  Written out letter
    by letter; nothing of the model is used. *)
From Coq Require Import String Ascii List Reals.
From Verif Require Import Py Num UnitsData UnitsStruct Spec.
Import ListNotations.
Local Open Scope string_scope.
Local Open Scope R_scope.

Definition root (n : string) : string :=
  match n with
  | String c (String d r) =>
      if in_dec string_dec n ["min"; "cP"; "mol"; "kg"] then n
      else if in_dec ascii_dec c ["m"; "c"; "d"; "k"; "M"]%char then String d r
      else n
  | _ => n
  end.
Definition rooted (l : half) : half := map (fun x => BU (root (bname x)) (bexp x)) l.

(** The name has the size that its letters suggest: prefix times the rest. *)
Definition regular (w : usys) (n : string) : Prop := w n = pscale n * w (root n).
(** The size of a name read that way. *)
Definition as_split (w : usys) : usys := fun n => pscale n * w (root n).
