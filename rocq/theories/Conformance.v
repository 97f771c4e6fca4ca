(** * Conformance: the repository's unit tests replayed on the model

    Everything here is a test of the model against the expectations written in
    /repo/tests and in docstrings, run on the rational instance.  Tests are not
    proofs; the properties are in the Properties files.  [near] plays the role of
    pytest.approx (relative tolerance 1e-6 unless given). *)
From Coq Require Import String Ascii List ZArith QArith Qcanon Qabs Bool.
From Verif Require Import Py Num UnitsData UnitsStruct Units.
Import ListNotations.
Local Open Scope string_scope.

Definition M (v : Q) (s : string) : pyval Q :=
  match mk_multi MMulti v s with Ok m => VMulti m | Raise _ => VObj end.
Definition MS (c : string) (v : Q) (s : string) : pyval Q :=
  match mk_multi (MSub c) v s with Ok m => VMulti m | Raise _ => VObj end.
Definition U (c : ucls) (v : Q) (s : string) (e : Z) : pyval Q :=
  match mk_unit c v s (eint e) with Ok u => VUnit u | Raise _ => VObj end.

Definition eq_res (r : res (pyval Q)) (e : pyval Q) : bool :=
  match r with Ok v => py_eq v e | Raise _ => false end.
Definition raises (r : res (pyval Q)) (e : exn) : bool :=
  match r, e with
  | Raise ETypeError, ETypeError => true
  | Raise EKeyError, EKeyError => true
  | Raise EValueError, EValueError => true
  | Raise EUnitConversionError, EUnitConversionError => true
  | Raise EZeroDivisionError, EZeroDivisionError => true
  | Raise EAttributeError, EAttributeError => true
  | _, _ => false
  end.
Definition near_tol (tol a b : Q) : bool := Qle_bool (Qabs (a - b)) (tol * Qabs b).
(** Replace the value by [x] when it is within tolerance of [x]. *)
Definition approx_tol (tol : Q) (v e : pyval Q) : pyval Q :=
  match v, e with
  | VUnit u, VUnit w => if near_tol tol (uv u) (uv w) then VUnit (UO (uc u) (uv w) (un u) (ue u)) else v
  | VMulti m, VMulti w => if near_tol tol (mv m) (mv w) then VMulti (MO (mc m) (mv w) (mtop m) (mbot m)) else v
  | _, _ => v
  end.
Definition near_res (tol : Q) (r : res (pyval Q)) (e : pyval Q) : bool :=
  match r with Ok v => py_eq (approx_tol tol v e) e | Raise _ => false end.
Definition conv_to (a : pyval Q) (s : string) : res (pyval Q) :=
  match a with
  | VUnit u => rmap VUnit (unit_convert_to tables0 u s)
  | VMulti m => rmap VMulti (multi_convert_to tables0 m s)
  | _ => Raise EAttributeError
  end.

(** tests/test_units_operations.py *)
Example t_add1 : eq_res (py_add (U Temperature 350 "K" 1) (VNum 50)) (U Temperature 400 "K" 1) = true.
Proof. vm_compute. reflexivity. Qed.
Example t_add2 : eq_res (py_add (U Temperature 350 "K" 1) (U Temperature 350 "K" 1)) (U Temperature 700 "K" 1) = true.
Proof. vm_compute. reflexivity. Qed.
Example t_badadd : forallb (fun p => raises (py_add (fst p) (snd p)) ETypeError && raises (py_sub (fst p) (snd p)) ETypeError)
  [(U UUnit 1 "K" 1, M 2 "K/W"); (U UUnit 1 "K" 1, U UUnit 1 "Pa" 1); (M 2 "K/W", M 4 "m/s")] = true.
Proof. vm_compute. reflexivity. Qed.
Example t_sub : (eq_res (py_sub (U Temperature 350 "K" 1) (VNum 50)) (U Temperature 300 "K" 1)
  && eq_res (py_sub (U Temperature 350 "K" 1) (U Temperature 350 "K" 1)) (U Temperature 0 "K" 1)) = true.
Proof. vm_compute. reflexivity. Qed.
Example t_mul : forallb (fun p => eq_res (py_mul (fst (fst p)) (snd (fst p))) (snd p))
  [((U Temperature 350 "K" 1, VNum 2), U Temperature 700 "K" 1);
   ((U Temperature 350 "K" 1, U Temperature 2 "K" 1), U Temperature 700 "K" 2);
   ((M 350 "J/s", U UUnit 1 "s" 1), U UUnit 350 "J" 1);
   ((M 1 "kg/m^3", M 1 "m^2/s"), M 1 "kg/m*s")] = true.
Proof. vm_compute. reflexivity. Qed.
Example t_div : forallb (fun p => eq_res (py_div (fst (fst p)) (snd (fst p))) (snd p))
  [((U Temperature 350 "K" 1, VNum 2), U Temperature 175 "K" 1);
   ((U Temperature 350 "K" 1, U Temperature 2 "K" 1), VNum 175);
   ((U Temperature 350 "K" 2, U Temperature 2 "K" 1), U Temperature 175 "K" 1);
   ((M 50 "m^2/s^2", M 10 "m/s"), M 5 "m/s");
   ((U Temperature 50 "K" 1, M 50 "K/s"), U UUnit 1 "s" 1);
   ((M 1 "m/kg^2", M 1 "m/kg"), U UUnit 1 "kg" (-1))] = true.
Proof. vm_compute. reflexivity. Qed.
Example t_reynolds :
  eq_res (let* a := py_mul (M (3#2) "kg/m^3") (M 2 "m/s") in
          let* b := py_mul a (U Length 1 "m" 1) in py_div b (M 3 "kg/m*s")) (VNum 1) = true.
Proof. vm_compute. reflexivity. Qed.
Example t_eq : py_eq (M 3 "kg/m*s") (M 3 "kg/s*m") = true.
Proof. vm_compute. reflexivity. Qed.
Example t_neg : (eq_res (py_neg (U UUnit 5 "m" 1)) (U UUnit (-5) "m" 1) && eq_res (py_neg (M 5 "W/m")) (M (-5) "W/m")) = true.
Proof. vm_compute. reflexivity. Qed.

(** tests/test_unit_prefixes.py *)
Example t_prefix1 :
  match mk_multi MMulti (1:Q) "kW/km" with
  | Ok m => match deconstruct_unit_prefixes (T:=Q) (mtop m) (mbot m) with
            | Ok (t, b, f) => half_eqb t [BU "W" (eint 1)] && half_eqb b [BU "m" (eint 1)] && Qeq_bool f 1
            | Raise _ => false end
  | Raise _ => false end = true.
Proof. vm_compute. reflexivity. Qed.
Example t_prefix2 : eq_res (py_div (M 1 "MW/Mm") (M 1 "kg/s")) (M 1 "m/s^2") = true.
Proof. vm_compute. reflexivity. Qed.
Example t_prefix3 : eq_res (py_mul (M 1 "kJ/s") (M 1 "J/s")) (M 1000 "W^2") = true.
Proof. vm_compute. reflexivity. Qed.

(** tests/test_unit_deconstruction.py *)
Example t_decon : forallb (fun p => eq_res (py_div (fst (fst p)) (snd (fst p))) (snd p))
  [((M 1 "kg^2/m*s^3", M 1 "kg/s"), U UUnit 1 "Pa" 1);
   ((M 1 "J^2/s^2", M 1 "J/s"), U UUnit 1 "W" 1);
   ((U Pressure 50 "Pa" 1, M 50 "kg/m*s^2"), VNum 1);
   ((M 50 "kg/m*s^2", U Pressure 50 "Pa" 1), VNum 1);
   ((U Pressure 50 "Pa" 1, M 50 "kg/m"), U UUnit 1 "s" (-2));
   ((MS "Power" 50 "W", M 50 "J/s"), VNum 1);
   ((MS "Power" 50 "W", U Time 50 "s" (-1)), U UUnit 1 "J" 1)] = true.
Proof. vm_compute. reflexivity. Qed.
Example t_simpl : forallb (fun s =>
  match parse_units s with
  | Ok (t, b) => match simplify_units t b with
                 | Ok (t, b) => set_eqb t [BU "W" (eint 1)] && set_eqb b nil
                 | Raise _ => false end
  | Raise _ => false end) ["J/s"; "kg*m^2/s^3"] = true.
Proof. vm_compute. reflexivity. Qed.

(** tests/test_unit_conversions.py *)
Example t_mconv : forallb (fun p => near_res (1 # 1000000) (conv_to (fst (fst p)) (snd (fst p))) (snd p))
  [((MS "Velocity" 3 "m/s", "cm/s"), MS "Velocity" 300 "cm/s");
   ((MS "DynamicViscosity" 1 "cP", "kg/s*m"), MS "DynamicViscosity" (1#1000) "kg/m*s");
   ((M 5 "m^3", "cm^3"), M 5000000 "cm^3");
   ((M 1 "W/m^2*K", "BTU/hr*ft^2*F"), M (17611#100000) "BTU/hr*ft^2*F");
   ((M 1 "g/cm*s", "kg/m*s"), M (1#10) "kg/m*s");
   ((M 1 "W/m*K", "BTU/hr*ft*F"), M (5777892#10000000) "BTU/hr*ft*F");
   ((MS "Density" 1 "g/cm^3", "kg/m^3"), MS "Density" 1000 "kg/m^3");
   ((M 1000 "L/s", "m^3/s"), M 1 "m^3/s");
   ((M 1 "L/s", "cm^3/s"), M 1000 "cm^3/s");
   ((M 101325 "Pa*m", "atm*m"), M 1 "atm*m");
   ((M 100 "Pa*m/s^2*F", "atm*ft/min^2*K"), M (20981833229#1000000000) "atm*ft/min^2*K");
   ((M 100 "W/m^2", "kg/s^3"), M 100 "kg/s^3");
   ((M 100 "W/m^2*K", "kg/s^3*K"), M 100 "kg/s^3*K");
   ((M 1 "kW/m", "W/m"), M 1000 "W/m");
   ((M 1000 "mPa*m/kg", "Pa*m/kg"), M 1 "Pa*m/kg");
   ((M 1 "kg/mol", "g/mol"), M 1000 "g/mol");
   ((MS "Velocity" 3 "m^2/s", "cm^2/s"), MS "Velocity" 30000 "cm^2/s")] = true.
Proof. vm_compute. reflexivity. Qed.
(** The acre test needs a square root and is outside the rational instance. *)

(** This test of the repository fails on the code as it is (see C27). *)
Example t_volume_fails : raises (conv_to (U Volume 2 "m^3" 1) "dm^3") EUnitConversionError = true.
Proof. vm_compute. reflexivity. Qed.

Example t_tconv : forallb (fun p => near_res (1 # 100000) (conv_to (fst (fst p)) (snd (fst p))) (snd p))
  [((U Temperature 300 "C" 1, "K"), U Temperature (57315#100) "K" 1);
   ((U Temperature 300 "C" 1, "F"), U Temperature 572 "F" 1);
   ((U Temperature 350 "C" 1, "R"), U Temperature (112167#100) "R" 1);
   ((U Temperature 300 "F" 1, "K"), U Temperature (422039#1000) "K" 1);
   ((U Temperature 300 "F" 1, "C"), U Temperature (148889#1000) "C" 1);
   ((U Temperature 350 "F" 1, "R"), U Temperature (80967#100) "R" 1);
   ((U Temperature 350 "K" 1, "C"), U Temperature (7685#100) "C" 1);
   ((U Temperature 350 "K" 1, "F"), U Temperature (17033#100) "F" 1);
   ((U Temperature 350 "K" 1, "R"), U Temperature 630 "R" 1);
   ((U Temperature 350 "R" 1, "C"), U Temperature (-787056#10000) "C" 1);
   ((U Temperature 350 "R" 1, "F"), U Temperature (-10967#100) "F" 1);
   ((U Temperature 350 "R" 1, "K"), U Temperature (194444#1000) "K" 1);
   ((U Temperature 350 "K" 2, "K^2"), U Temperature 350 "K" 2);
   ((U Temperature (27515#100) "K" 2, "C^2"), U Temperature 4 "C" 2)] = true.
Proof. vm_compute. reflexivity. Qed.
Example t_pconv : forallb (fun p => near_res (1 # 1000) (conv_to (fst (fst p)) (snd (fst p))) (snd p))
  [((U Pressure 1 "atm" 1, "Pa"), U Pressure 101325 "Pa" 1);
   ((U Pressure 1 "atm" 1, "bar"), U Pressure (101325#100000) "bar" 1);
   ((U Pressure 1 "atm" 1, "kPa"), U Pressure (101325#1000) "kPa" 1);
   ((U Pressure 1 "atm" 1, "mmHg"), U Pressure (760002#1000) "mmHg" 1);
   ((U Pressure 1 "atm" 1, "psi"), U Pressure (1469594#100000) "psi" 1);
   ((U Pressure 101325 "Pa" 1, "atm"), U Pressure 1 "atm" 1);
   ((U Pressure (101325#1000) "kPa" 1, "atm"), U Pressure 1 "atm" 1);
   ((U Pressure (101325#100000) "bar" 1, "atm"), U Pressure 1 "atm" 1);
   ((U Pressure 760 "mmHg" 1, "atm"), U Pressure 1 "atm" 1);
   ((U Pressure (14696#1000) "psi" 1, "atm"), U Pressure 1 "atm" 1)] = true.
Proof. vm_compute. reflexivity. Qed.

(** Docstring examples: units.py:435-440 (cancel), 475-477 (combine), 497-501
    (parse), 562-567 (deconstruct), 627-632 (simplify), 803-805 is not modelled. *)
Example d_cancel : match parse_units "kg*m/m^2" with
  | Ok (t, b) => let '(t, b) := cancel_units t b in half_eqb t [BU "kg" (eint 1)] && half_eqb b [BU "m" (eint 1)]
  | Raise _ => false end = true.
Proof. vm_compute. reflexivity. Qed.
Example d_combine : match parse_units "m*m/s" with
  | Ok (t, _) => half_eqb (combine_units t) [BU "m" (eint 0); BU "m" (eint 2)]
  | Raise _ => false end = true.
Proof. vm_compute. reflexivity. Qed.
Example d_decon : match parse_units "Pa/K" with
  | Ok (t, b) => match deconstruct_units false t b with
     | Ok (t, b) => half_eqb t [BU "kg" (eint 1)] && half_eqb b [BU "K" (eint 1); BU "m" (eint 1); BU "s" (eint 2)]
     | _ => false end
  | Raise _ => false end = true.
Proof. vm_compute. reflexivity. Qed.
Example d_show : match parse_units "kg*m/s^2" with
  | Ok (t, b) => match get_unit_string t b with Ok s => String.eqb s ("kg * m / s" +++ to_sup "2") | _ => false end
  | _ => false end = true.
Proof. vm_compute. reflexivity. Qed.
Example d_show2 : match parse_units "m^0.5*s^-1.25/K^-2" with
  | Ok (t, b) => match get_unit_string t b with Ok s => String.eqb s ("m" +++ to_sup "0.5" +++ " * s" +++ to_sup "-1.25" +++ " * K" +++ to_sup "2" +++ " / ") | _ => false end
  | _ => false end = true.
Proof. vm_compute. reflexivity. Qed.
