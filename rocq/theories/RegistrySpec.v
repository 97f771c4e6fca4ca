(** * RegistrySpec: the registered names that the conversion tables do not hold, and
    those of the other classes *)
From Coq Require Import String List.
From Verif Require Import Py UnitsData.
Import ListNotations.
Local Open Scope string_scope.
Local Open Scope list_scope.

(** The names of the library: those of the conversion tables, and the others. *)
Definition other_names (c : ucls) : list string :=
  match c with
  | Temperature => ["K"; "C"; "R"; "F"]
  | Current => ["A"]
  | Amount => ["mol"]
  | Length => ["Mm"]
  | Mass => ["cg"]
  | Pressure => ["cPa"]
  | Force => ["cN"]
  | Volume => ["L"; "uL"; "mL"; "cL"; "dL"; "kL"; "ML"; "m^3"; "um^3"; "mm^3"; "cm^3"; "dm^3"; "km^3"; "Mm^3"; "ft^3"; "in^3"]
  | Area => ["acre"; "m^2"; "um^2"; "mm^2"; "cm^2"; "dm^2"; "km^2"; "Mm^2"; "ft^2"; "in^2"]
  | _ => []
  end.
