(** * UnitsData: the registries and conversion tables of units/units.py *)
From Coq Require Import String Ascii List ZArith QArith Qcanon Bool.
From Verif Require Import Py Num.
Import ListNotations.
Local Open Scope string_scope.
Local Open Scope list_scope.

(** units.py:33 *)
Definition prefixes : list string := ["u"; "m"; "c"; "d"; "k"; "M"].

(** units.py:36-43 *)
Definition prefix_factors : list (string * Q) :=
  [("u", 1 # 1000000); ("m", 1 # 1000); ("c", 1 # 100); ("d", 1 # 10);
   ("k", 1000 # 1); ("M", 1000000 # 1)].

(** [[f"{x}{y}" for x in prefixes for y in l]], the comprehension used on lines
    49, 60, 65, 70, 75, 80 and 85. *)
Definition prefixed (l : list string) : list string :=
  flat_map (fun x => map (fun y => x +++ y) l) prefixes.

(** The unit classes, units.py:144 and 1192-1449. *)
Inductive ucls :=
| UUnit | Temperature | Pressure | Length | Time | Energy | Mass | Current
| Amount | Force | Volume | Area.

Definition ucls_eqb (a b : ucls) : bool :=
  match a, b with
  | UUnit, UUnit | Temperature, Temperature | Pressure, Pressure
  | Length, Length | Time, Time | Energy, Energy | Mass, Mass
  | Current, Current | Amount, Amount | Force, Force | Volume, Volume
  | Area, Area => true
  | _, _ => false
  end.

(** units.py:45-91 *)
Definition TemperatureUnits := ["K"; "C"; "R"; "F"].
Definition LengthUnits := prefixed ["m"] ++ ["m"; "ft"; "in"; "yd"; "mile"].
Definition CurrentUnits := ["A"].
Definition TimeUnits := ["s"; "min"; "hr"; "day"].
Definition MassUnits := prefixed ["g"] ++ ["g"; "lb"].
Definition EnergyUnits := prefixed ["J"] ++ ["J"; "BTU"].
Definition PressureUnits := prefixed ["Pa"] ++ ["psi"; "Pa"; "atm"; "bar"; "mmHg"].
Definition ForceUnits := prefixed ["N"] ++ ["N"; "lbf"].
Definition VolumeUnits := prefixed ["m^3"; "L"] ++ ["m^3"; "ft^3"; "L"; "in^3"].
Definition AreaUnits := prefixed ["m^2"] ++ ["m^2"; "ft^2"; "acre"; "in^2"].
Definition AmountUnits := ["mol"].

Definition as_dict (c : ucls) (l : list string) : list (string * ucls) :=
  map (fun k => (k, c)) l.

(** units.py:93-105, composed with UNIT_CLASSES (1451-1463): the registry maps a
    name to the name of a class, which UNIT_CLASSES maps to the class itself.
    Later entries override earlier ones, as in the dict display. *)
Definition UNIT_REGISTRY : list (string * ucls) :=
  as_dict Temperature TemperatureUnits ++ as_dict Length LengthUnits ++
  as_dict Mass MassUnits ++ as_dict Current CurrentUnits ++
  as_dict Time TimeUnits ++ as_dict Energy EnergyUnits ++
  as_dict Pressure PressureUnits ++ as_dict Force ForceUnits ++
  as_dict Volume VolumeUnits ++ as_dict Area AreaUnits ++
  as_dict Amount AmountUnits.

(** units.py:109-117 *)
Definition DECONSTRUCTABLE_UNITS : list (string * string) :=
  [("Pa", "kg/m*s^2"); ("J", "kg*m^2/s^2"); ("W", "J/s"); ("psi", "lbf/in^2");
   ("cP", "g/m*s"); ("C", "A*s"); ("V", "kg*m^2/s^3*A")].

(** units.py:119-123 *)
Definition UNIT_SIMPLIFICATIONS : list (string * string) :=
  [("kg/s^3*K", "W/m^2*K"); ("kg/K*s^3", "W/m^2*K"); ("kg/s^3", "W/m^2")].

(** units.py:125 *)
Definition UNIT_COMPOSITES : list string := ["L"; "acre"].

(** The class attribute [standard]; plain [Unit] has none (None here, an
    AttributeError in Python).  units.py:1193, 1210, 1242, 1273, 1291, 1317,
    1342, 1350, 1359, 1386, 1428. *)
Definition standard (c : ucls) : option string :=
  match c with
  | UUnit => None
  | Temperature => Some "K"
  | Pressure => Some "Pa"
  | Length => Some "m"
  | Time => Some "s"
  | Energy => Some "J"
  | Mass => Some "kg"
  | Current => Some "A"
  | Amount => Some "mol"
  | Force => Some "N"
  | Volume => Some "m^3"
  | Area => Some "m^2"
  end.

Section Tables.
Context {T : Type} `{Num T}.

Definition conv := T -> res T.
Definition table := list (string * conv).

(** [lambda x: x*q] and [lambda x: x/q] for a nonzero literal q. *)
Definition times (q : Q) : conv := fun x => Ok (nmul x (nq q)).
Definition over (q : Q) : conv := fun x => Ok (ndiv x (nq q)).

(** to_standard_conversions: units.py 1194-1198 (Temperature), 1212-1222
    (Pressure), 1244-1254 (Length), 1275-1279 (Time), 1293-1301 (Energy),
    1319-1326 (Mass), 1361-1368 (Force), 1390-1404 (Volume), 1430-1435 (Area).
    Unit, Current and Amount have no tables (AttributeError). *)
Definition to_standard0 (c : ucls) : option table :=
  match c with
  | UUnit | Current | Amount => None
  | Temperature => Some
      [("F", fun x => Ok (nmul (nq (5 # 9)) (nadd x (nq (45967 # 100)))));
       ("C", fun x => Ok (nadd x (nq (27315 # 100))));
       ("R", fun x => Ok (ndiv x (nq (18 # 10))))]
  | Pressure => Some
      [("uPa", over (1000000 # 1)); ("mPa", over (1000 # 1)); ("dPa", over (10 # 1));
       ("kPa", times (1000 # 1)); ("MPa", times (10000000 # 1)); (* 10E6 *)
       ("bar", times (100000 # 1)); ("atm", times (101325 # 1));
       ("mmHg", times (133322 # 1000)); ("psi", times (689476 # 100))]
  | Length => Some
      [("in", fun x => Ok (nmul (ndiv x (nq (12 # 1))) (nq (3048 # 10000))));
       ("ft", times (3048 # 10000)); ("yd", times (9144 # 10000));
       ("mile", times (160934 # 100)); ("um", over (1000000 # 1));
       ("mm", over (1000 # 1)); ("cm", over (100 # 1)); ("dm", over (10 # 1));
       ("km", times (1000 # 1))]
  | Time => Some
      [("min", times (60 # 1)); ("hr", times (3600 # 1)); ("day", times (86400 # 1))]
  | Energy => Some
      [("uJ", over (1000000 # 1)); ("mJ", over (1000 # 1)); ("cJ", over (100 # 1));
       ("dJ", over (10 # 1)); ("kJ", times (1000 # 1)); ("MJ", times (1000000 # 1));
       ("BTU", times (1055056 # 1000))]
  | Mass => Some
      [("ug", over (1000000000 # 1)); ("mg", over (1000000 # 1)); ("dg", over (10000 # 1));
       ("g", over (1000 # 1)); ("Mg", times (1000 # 1)); ("lb", times (453592 # 1000000))]
  | Force => Some
      [("uN", over (1000000 # 1)); ("mN", over (1000 # 1)); ("dN", over (10 # 1));
       ("kN", times (1000 # 1)); ("MN", times (1000000 # 1)); ("lbf", times (444822 # 100000))]
  | Volume => Some
      [("uL", over (1 # 1000)); ("mL", over (100 # 1)); ("cL", over (4641588 # 100000));
       ("dL", over (21544346 # 1000000)); ("kL", fun x => Ok x); ("L", over (10 # 1));
       ("um^3", over (1000000 # 1)); ("mm^3", over (1000 # 1)); ("cm^3", over (100 # 1));
       ("dm^3", over (10 # 1)); ("km^3", times (1000 # 1)); ("ft^3", times (3048 # 10000));
       ("gal", times (454609 # 100000000))]
  | Area => Some
      [("acre", fun x => let* r := npow (nq (4046873 # 1000)) (Q2Qc (1 # 2)) in Ok (nmul x r));
       ("in^2", fun _ => Raise ENameError);   (* line 1432 refers to an undefined X *)
       ("ft^2", times (3048 # 10000)); ("mile^2", times (1609344 # 1000))]
  end.

(** from_standard_conversions: units.py 1199-1203, 1224-1234, 1256-1267,
    1281-1285, 1303-1311, 1328-1335, 1370-1377, 1406-1420, 1437-1442. *)
Definition from_standard0 (c : ucls) : option table :=
  match c with
  | UUnit | Current | Amount => None
  | Temperature => Some
      [("F", fun x => Ok (nadd (nmul (nq (18 # 10)) (nsub x (nq (27315 # 100)))) (nq (32 # 1))));
       ("C", fun x => Ok (nsub x (nq (27315 # 100))));
       ("R", times (18 # 10))]
  | Pressure => Some
      [("uPa", times (1000000 # 1)); ("mPa", times (1000 # 1)); ("dPa", times (10 # 1));
       ("kPa", over (1000 # 1)); ("MPa", over (10000000 # 1)); (* 10E6 *)
       ("bar", over (100000 # 1)); ("atm", over (101325 # 1));
       ("mmHg", over (133322 # 1000)); ("psi", over (689476 # 100))]
  | Length => Some
      [("in", fun x => Ok (nmul (nmul x (nq (12 # 1))) (nq (328084 # 100000))));
       ("ft", times (328084 # 100000)); ("yd", over (9144 # 10000));
       ("mile", times (160934 # 100)); (* multiplies, line 1260 *)
       ("um", times (1000000 # 1));
       ("mm", times (1000 # 1)); ("cm", times (100 # 1)); ("dm", times (10 # 1));
       ("km", over (1000 # 1))]
  | Time => Some
      [("min", over (60 # 1)); ("hr", over (3600 # 1)); ("day", over (86400 # 1))]
  | Energy => Some
      [("uJ", times (1000000 # 1)); ("mJ", times (1000 # 1)); ("cJ", times (100 # 1));
       ("dJ", times (10 # 1)); ("kJ", over (1000 # 1)); ("MJ", over (1000000 # 1));
       ("BTU", over (1055056 # 1000))]
  | Mass => Some
      [("ug", times (1000000000 # 1)); ("mg", times (1000000 # 1)); ("dg", times (10000 # 1));
       ("g", times (1000 # 1)); ("Mg", over (1000 # 1)); ("lb", times (220462 # 100000))]
  | Force => Some
      [("uN", times (1000000 # 1)); ("mN", times (1000 # 1)); ("dN", times (10 # 1));
       ("kN", over (1000 # 1)); ("MN", over (1000000 # 1)); ("lbf", over (444822 # 100000))]
  | Volume => Some
      [("uL", times (1 # 1000)); ("mL", times (100 # 1)); ("cL", times (4641588 # 100000));
       ("dL", times (21544346 # 1000000)); ("kL", fun x => Ok x); ("L", times (10 # 1));
       ("um^3", times (1000000 # 1)); ("mm^3", times (1000 # 1)); ("cm^3", times (100 # 1));
       ("dm^3", times (10 # 1)); ("km^3", over (1000 # 1)); ("ft^3", over (3048 # 10000));
       ("gal", over (454609 # 100000000))]
  | Area => Some
      [("acre", fun x => let* r := npow (nq (4046873 # 1000)) (Q2Qc (1 # 2)) in Ok (ndiv x r));
       ("in^2", over (254 # 10000)); ("ft^2", over (3048 # 10000));
       ("mile^2", over (1609344 # 1000))]
  end.

(** The conversion dictionaries are class attributes that
    [register_unit_from_existing] updates; they are the mutable state of the
    library and are passed to every conversion. *)
Record tables := Tables {
  to_standard : ucls -> option table;
  from_standard : ucls -> option table
}.
Definition tables0 : tables := Tables to_standard0 from_standard0.

End Tables.
Arguments conv T : clear implicits.
Arguments table T : clear implicits.
Arguments tables T : clear implicits.
