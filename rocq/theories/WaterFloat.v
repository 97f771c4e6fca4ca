(** * WaterFloat: utility/get_chemical_properties.py in binary64

    Water.v with floats: the temperature and the numbers of the table are binary64
    numbers (the literals of water_data.py rounded), every operation rounds.
    Ints are converted where they meet floats; those that occur are exact. *)
From Coq Require Import String List ZArith QArith Bool.
From Coq Require Import Floats.SpecFloat.
From Verif Require Import Py WaterData Rounding Water.
Import ListNotations.
Local Open Scope string_scope.
Local Open Scope list_scope.

Inductive fwv := FN (x : spec_float) | FT (s : string).
Definition fcell (c : cell) : fwv := match c with CN q => FN (f_lit q) | CT s => FT s end.
(** [y1 == y2]. *)
Definition fcell_eqb (a b : cell) : bool :=
  match a, b with
  | CN x, CN y => SFeqb (f_lit x) (f_lit y)
  | CT s, CT t => String.eqb s t
  | _, _ => false
  end.
(** [math.floor] and [math.ceil] of a finite float are exact ints. *)
Definition f_floor (x : spec_float) : Z :=
  match x with
  | S754_finite s m e =>
      let z := if s then Zneg m else Zpos m in
      if (0 <=? e)%Z then (z * 2 ^ e)%Z else (z / 2 ^ (- e))%Z
  | _ => 0%Z
  end.
Definition f_ceil (x : spec_float) : Z := (- f_floor (SFopp x))%Z.

(** Lines 44-62. *)
Definition f_property (data : list (Q * list (string * cell))) (T : spec_float) (lo hi : Z) (p : string) : res fwv :=
  let* y1 := item data lo p in
  let* y2 := item data hi p in
  if fcell_eqb y1 y2 then Ok (fcell y1)
  else if negb (String.eqb p "Phase") then
    match y1, y2 with
    | CN a, CN b =>
        if Z.eqb (hi - lo) 0 then Raise EZeroDivisionError
        else Ok (FN (SFadd 53 1024 (f_lit a)
               (SFmul 53 1024 (SFsub 53 1024 T (f_int lo))
                  (SFdiv 53 1024 (SFsub 53 1024 (f_lit b) (f_lit a)) (f_int (hi - lo))))))
    | _, _ => Raise ETypeError
    end
  else Ok (fcell y2).
Fixpoint f_properties_of (data : list (Q * list (string * cell))) (T : spec_float) (lo hi : Z) (keys : list string) : res (list fwv) :=
  match keys with
  | nil => Ok nil
  | p :: keys' =>
      let* v := f_property data T lo hi p in
      let* l := f_properties_of data T lo hi keys' in
      Ok (v :: l)
  end.

(** Lines 100-116 with return_object=False.  Comparisons with ints are exact; they
    fail for nan. *)
Definition row_index (T : spec_float) : spec_float := SFdiv 53 1024 (SFsub 53 1024 T (f_int 275)) (f_int 10).
Definition f_rows (T : spec_float) : Z * Z :=
  ((f_floor (row_index T) * 10 + 275)%Z, (f_ceil (row_index T) * 10 + 275)%Z).
Definition f_water_properties (T : spec_float) : res (list fwv) :=
  if SFleb (f_int 275) T && SFleb T (f_int 1345) then
    let* l := f_properties_of WATER_PROPERTIES T (fst (f_rows T)) (snd (f_rows T)) WATER_PROPERTY_KEYS in
    Ok (FN T :: l)
  else Raise EOutOfRangeProperty.
