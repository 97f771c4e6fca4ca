(** * RefuseSpec: which error a refused conversion of a MultiUnit raises

    [stands] (ReadSpec.v) says what every unit is taken for.  Here are the units it
    is not defined for, name by name, and the order in which they are met. *)
From Coq Require Import String Ascii List ZArith QArith Qcanon Bool Reals.
From Verif Require Import Py Num UnitsData UnitsStruct Units Spec PrefixSpec PassSpec ReadSpec.
Import ListNotations.
Local Open Scope string_scope.
Local Open Scope list_scope.

(** Registered names with no entry in the conversion table of their class. *)
Definition gaps : list string := ["Mm"; "cg"; "cPa"; "cN"].
(** Prefixed litres: in the table, but the standard unit m^3 is looked up as m. *)
Definition litres : list string := ["uL"; "mL"; "cL"; "dL"; "kL"].
(** Volumes and areas: m^3 and m^2 followed by an exponent cannot be taken apart. *)
Definition cubes : list string :=
  ["L"; "acre"; "uL"; "mL"; "cL"; "dL"; "kL"; "ML"; "um^3"; "mm^3"; "cm^3"; "dm^3"; "km^3"; "Mm^3"; "m^3"; "ft^3"; "in^3";
   "um^2"; "mm^2"; "cm^2"; "dm^2"; "km^2"; "Mm^2"; "m^2"; "ft^2"; "in^2"].
Definition member (n : string) (l : list string) : bool := if in_dec string_dec n l then true else false.

(** A registered unit that cannot be replaced, and the error. *)
Definition stuck (x : bu) : option exn :=
  let n := bname x in
  let one := if Qc_eq_dec (ev (bexp x)) (qc 1) then true else false in
  if member n gaps then Some EKeyError
  else if one && member n litres then Some EKeyError
  else if one && String.eqb n "ML" then Some EUnitConversionError
  else if member n cubes then Some EValueError
  else None.

(** Raised when the classes of the units are looked up: the name is not registered. *)
Definition stranger (m : bool * bu) : option exn :=
  match stands (fst m) (snd m) with
  | Some _ => None
  | None => match stuck (snd m) with Some _ => None | None => Some EKeyError end
  end.
(** Raised when the units are replaced one by one. *)
Definition trouble (m : bool * bu) : option exn :=
  match stands (fst m) (snd m) with Some _ => None | None => stuck (snd m) end.
(** The same below the stroke, where a degree to the power 0 counts as 0 and is divided by. *)
Definition trouble_below (m : bool * bu) : option exn :=
  match trouble m with
  | Some e => Some e
  | None =>
      match (if fst m then None else dict_get opened_sizes (bname (snd m))) with
      | Some _ => None
      | None => match dict_get degree_sizes (bname (snd m)) with
                | Some _ => if Qc_eq_dec (ev (bexp (snd m))) (qc 0) then Some EZeroDivisionError else None
                | None => None
                end
      end
  end.

Definition or_else {A} (a b : option A) : option A := match a with Some x => Some x | None => b end.
Fixpoint first {A B} (f : A -> option B) (l : list A) : option B :=
  match l with nil => None | x :: l' => or_else (f x) (first f l') end.

(** Taking the prefixes off, then looking up the classes. *)
Definition unprepared (top bot : half) : option exn :=
  or_else (first (fun x => if String.eqb (bname x) "" then Some EIndexError else None) (top ++ bot))
          (or_else (first stranger (marked (rooted top))) (first stranger (marked (rooted bot)))).
Definition unreplaced (top bot : half) : option exn :=
  or_else (first trouble (marked (rooted top))) (first trouble_below (marked (rooted bot))).

(** The first error met on the way from [top/bot] to [pt/pb]: the target is
    prepared first and replaced last. *)
Definition first_error (top bot pt pb : half) : option exn :=
  or_else (unprepared pt pb) (or_else (unprepared top bot) (or_else (unreplaced top bot) (unreplaced pt pb))).
Definition same_seen_dims (top bot pt pb : half) : Prop :=
  forall c, (seen_dim top c - seen_dim bot c = seen_dim pt c - seen_dim pb c)%Qc.
Inductive refused (top bot pt pb : half) : exn -> Prop :=
| refused_unit e : first_error top bot pt pb = Some e -> refused top bot pt pb e
| refused_dims : first_error top bot pt pb = None -> ~ same_seen_dims top bot pt pb -> refused top bot pt pb EUnitConversionError
| refused_zero : first_error top bot pt pb = None -> same_seen_dims top bot pt pb -> seen pt = 0%R ->
    refused top bot pt pb EZeroDivisionError.
