(** * Water: utility/get_chemical_properties.py

    Temperatures are real numbers; [math.floor] and [math.ceil] are exact. *)
From Coq Require Import String List ZArith QArith Qcanon Bool Reals Qreals.
From Verif Require Import Py Num UnitsData UnitsStruct Units Formulas WaterData.
Import ListNotations.
Local Open Scope string_scope.
Local Open Scope list_scope.
Local Open Scope R_scope.

(** Entries of the returned list: numbers and texts. *)
Inductive wv := WN (x : R) | WT (s : string).
Definition cell_val (c : cell) : wv := match c with CN q => WN (Q2R q) | CT s => WT s end.
(** [y1 == y2]. *)
Definition cell_eqb (a b : cell) : bool :=
  match a, b with
  | CN x, CN y => Qeq_bool x y
  | CT s, CT t => String.eqb s t
  | _, _ => false
  end.
Definition Rfloor (x : R) : Z := (up x - 1)%Z.
Definition Rceil (x : R) : Z := (- Rfloor (- x))%Z.
(** [data[bound]]: a float key equals the integer of the same value; of equal keys in
    a dict literal the last counts. *)
Fixpoint row_at (data : list (Q * list (string * cell))) (k : Z) : option (list (string * cell)) :=
  match data with
  | nil => None
  | (t, r) :: data' =>
      match row_at data' k with
      | Some r' => Some r'
      | None => if Qeq_bool t (inject_Z k) then Some r else None
      end
  end.
Definition item (data : list (Q * list (string * cell))) (k : Z) (p : string) : res cell :=
  match row_at data k with
  | Some r => match dict_get r p with Some c => Ok c | None => Raise EKeyError end
  | None => Raise EKeyError
  end.

(** Lines 44-62.  Subtracting texts raises TypeError. *)
Definition one_property (data : list (Q * list (string * cell))) (T : R) (lo hi : Z) (p : string) : res wv :=
  let* y1 := item data lo p in
  let* y2 := item data hi p in
  if cell_eqb y1 y2 then Ok (cell_val y1)
  else if negb (String.eqb p "Phase") then
    match y1, y2 with
    | CN a, CN b =>
        let* d := pydiv (Q2R b - Q2R a) (IZR hi - IZR lo) in
        Ok (WN (Q2R a + (T - IZR lo) * d))
    | _, _ => Raise ETypeError
    end
  else Ok (cell_val y2).
Fixpoint properties_of (data : list (Q * list (string * cell))) (T : R) (lo hi : Z) (keys : list string) : res (list wv) :=
  match keys with
  | nil => Ok nil
  | p :: keys' =>
      let* v := one_property data T lo hi p in
      let* l := properties_of data T lo hi keys' in
      Ok (v :: l)
  end.
Definition get_property_data data (T : R) keys lo hi : res (list wv) :=
  let* l := properties_of data T lo hi keys in Ok (WN T :: l).

(** Lines 100-116 with return_object=False. *)
Definition get_water_properties (T : R) : res (list wv) :=
  if negb (Rltb T 275) && negb (Rltb 1345 T) then
    let lo := (Rfloor ((T - 275) / 10) * 10 + 275)%Z in
    let hi := (Rceil ((T - 275) / 10) * 10 + 275)%Z in
    get_property_data WATER_PROPERTIES T WATER_PROPERTY_KEYS lo hi
  else Raise EOutOfRangeProperty.

(** Lines 14-32: the object.  A text where a number belongs is not modelled. *)
Record water := MkWater {
  w_temperature : val; w_pressure : val; w_cp : val; w_cv : val; w_density : val; w_enthalpy : val; w_entropy : val;
  w_internal_energy : val; w_phase : string; w_conductivity : val; w_viscosity : val; w_volume : val }.
Definition water_init (args : list wv) : res water :=
  match args with
  | [WN pressure; WN temperature; WN cp; WN cv; WN density; WN enthalpy; WN entropy; WN internal_energy; WT phase; WN conductivity; WN viscosity; WN volume] =>
      let m c x s := rmap VMulti (mk_multi (MSub c) x s) in
      let* T := rmap VUnit (mk_unit Temperature temperature "K" (eint 1)) in
      let* P := rmap VUnit (mk_unit Pressure pressure "MPa" (eint 1)) in
      let* Cp := m "Cp" cp "J/g*K" in
      let* Cv := m "Cv" cv "J/g*K" in
      let* rho := m "Density" density "kg/m^3" in
      let* h := m "Enthalpy" enthalpy "kJ/kg" in
      let* s := m "Entropy" entropy "J/g*K" in
      let* u := m "InternalEnergy" internal_energy "kJ/kg" in
      let* k := m "ThermalConductivity" conductivity "W/m*K" in
      let* mu := m "DynamicViscosity" viscosity "uPa*s" in
      let* v := m "SpecificVolume" volume "m^3/kg" in
      Ok (MkWater T P Cp Cv rho h s u phase k mu v)
  | _ => Raise Unmodelled
  end.
(** return_object=True; the setter of [temperature] (lines 37-40) makes the same call. *)
Definition get_water (T : R) : res water := let* l := get_water_properties T in water_init l.
