(** * CoefSpec: equations with numbers written before the formulas *)
From Coq Require Import String Ascii List ZArith Bool.
From Verif Require Import Py BalanceSpec.
Import ListNotations.
Local Open Scope string_scope.
Local Open Scope list_scope.

(** A number: digits and dots, as in 2 and 2.0. *)
Fixpoint number_text (s : string) : Prop :=
  match s with EmptyString => True | String c s => (digit c \/ c = "."%char) /\ number_text s end.
(** What may be written before a formula: nothing, or a number with or without a blank after it. *)
Definition coefficient_text (s : string) : Prop :=
  s = "" \/ exists n, n <> "" /\ number_text n /\ (s = n \/ s = n +++ " ").
(** A formula with what is written before it, and a reaction of such formulas. *)
Definition numbered_text (x : string * formula) : string := fst x +++ formula_text (snd x).
Definition numbered_equation (rs ps : list (string * formula)) : string :=
  join " + " (map numbered_text rs) +++ " -> " +++ join " + " (map numbered_text ps).
(** Any formula, not empty, with any number before it. *)
Definition numbered (x : string * formula) : Prop := coefficient_text (fst x) /\ snd x <> [] /\ Forall well (snd x).
(** Coefficients and names, as printed. *)
Definition printed_side (ks names : list string) : string := join " + " (map (fun x => fst x +++ " " +++ snd x) (combine ks names)).
Definition printed (kr nr kp np : list string) : string := printed_side kr nr +++ " -> " +++ printed_side kp np.
(** A whole number as printed, and as written before a formula in a printed equation. *)
Definition whole_text (k : Z) : string := show_Z k +++ ".0".
Definition with_coefficients (ks : list Z) (fs : list formula) : list (string * formula) := combine (map (fun k => whole_text k +++ " ") ks) fs.

(** Blanks: spaces and the control characters from tab to carriage return. *)
Fixpoint blanks (s : string) : Prop :=
  match s with EmptyString => True | String c s => (c = " "%char \/ (9 <= nat_of_ascii c <= 13)%nat) /\ blanks s end.
(** A formula between blanks, and a reaction of such formulas. *)
Definition spaced_text (x : string * formula * string) : string := let '(a, f, b) := x in a +++ formula_text f +++ b.
Definition spaced_equation (rs ps : list (string * formula * string)) : string :=
  join "+" (map spaced_text rs) +++ "->" +++ join "+" (map spaced_text ps).
Definition spaced (x : string * formula * string) : Prop := let '(a, f, b) := x in blanks a /\ blanks b /\ f <> [] /\ Forall well f.
Definition bare_formula (x : string * formula * string) : formula := snd (fst x).
