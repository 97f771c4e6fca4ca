(** * UnitErrSpec: the names of the conversion tables whose constants are not the SI ones *)
From Coq Require Import String List ZArith QArith Reals Qreals.
From Verif Require Import Py UnitsData UnitConvSpec.
Import ListNotations.
Local Open Scope string_scope.
Local Open Scope list_scope.

(** All tabulated names (temperatures are C24, volumes and areas C52). *)
Definition table_names (c : ucls) : list string :=
  near_names c ++ match c with Length => ["mile"] | _ => [] end.
(** The standard unit of a class. *)
Definition standard_name (c : ucls) : string :=
  match c with Pressure => "Pa" | Length => "m" | Time => "s" | Energy => "J" | Mass => "kg" | Force => "N" | _ => "" end.
(** By how much values come out too large when converted from the unit [n] ... *)
Definition out_of (n : string) : Q :=
  if String.eqb n "MPa" then 10
  else if String.eqb n "psi" then (689476 # 100) / ((444822 # 100000) / ((254 # 10000) * (254 # 10000)))
  else if String.eqb n "mile" then (160934 # 100) / (1609344 # 1000)
  else if String.eqb n "lb" then (453592 # 1000000) / (45359237 # 100000000)
  else 1.
(** ... and when converted into it. *)
Definition into (n : string) : Q :=
  if String.eqb n "MPa" then 1 # 10
  else if String.eqb n "psi" then ((444822 # 100000) / ((254 # 10000) * (254 # 10000))) / (689476 # 100)
  else if String.eqb n "mile" then (160934 # 100) * (1609344 # 1000)
  else if String.eqb n "ft" then (328084 # 100000) * (3048 # 10000)
  else if String.eqb n "in" then (3937008 # 100000) * (254 # 10000)
  else if String.eqb n "lb" then (220462 # 100000) * (45359237 # 100000000)
  else 1.
