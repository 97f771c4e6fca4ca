(** * Units: the classes Unit and MultiUnit, their operators and conversions *)
From Coq Require Import String Ascii List ZArith QArith Qcanon Bool.
From Verif Require Import Py Num UnitsData UnitsStruct.
Import ListNotations.
Local Open Scope string_scope.
Local Open Scope list_scope.

(** MultiUnit (units.py:349) or a named direct subclass of it: the classes of
    property_units.py, heat_transfer.py, mass_transfer.py, reactions.py and
    fluids.py, all of which have an empty body. *)
Inductive mcls := MMulti | MSub (name : string).
Definition mcls_eqb (a b : mcls) : bool :=
  match a, b with
  | MMulti, MMulti => true
  | MSub x, MSub y => String.eqb x y
  | _, _ => false
  end.

Section Model.
Context {T : Type} `{Num T}.

(** A Unit object (units.py:162-172) and a MultiUnit object (units.py:366-373). *)
Record unit_obj := UO { uc : ucls; uv : T; un : string; ue : expo }.
Record multi_obj := MO { mc : mcls; mv : T; mtop : half; mbot : half }.

(** Python values that occur as operands and results: numbers, None, unit
    objects, and [VObj], an object of a class unknown to the library. *)
Inductive pyval :=
| VNum (x : T)
| VNone
| VObj
| VUnit (u : unit_obj)
| VMulti (m : multi_obj).

(** ** Constructors *)

(** [cls(value, unit, exponent)] for a Unit class: units.py 162-172, 1204, 1235,
    1268, 1286, 1312, 1336, 1343, 1351, 1378, 1421, 1443. *)
Definition split_caret (c : ucls) (v : T) (n : string) (e : expo) : res unit_obj :=
  if has_char "^" n then
    match split_on "^" n with
    | [n'; e'] => let* q := py_float e' in Ok (UO c v n' (eflt q))
    | _ => Raise EValueError
    end
  else Ok (UO c v n e).

Definition mk_unit (c : ucls) (v : T) (n : string) (e : expo) : res unit_obj :=
  match c with
  | Pressure => if mem_str n PressureUnits then Ok (UO c v n e) else Raise ETypeError
  | Current => if mem_str n CurrentUnits then Ok (UO c v n e) else Raise ETypeError
  | Amount => if mem_str n AmountUnits then Ok (UO c v n e) else Raise ETypeError
  | Force => if mem_str n ForceUnits then Ok (UO c v n e) else Raise ETypeError
  | Volume | Area => split_caret c v n e
  | _ => Ok (UO c v n e)
  end.

(** [cls(value, "unit string")] for MultiUnit and its subclasses, units.py:366-373
    with a non-empty string; the empty string selects the default halves. *)
Definition mk_multi (c : mcls) (v : T) (s : string) : res multi_obj :=
  if String.eqb s EmptyString then Ok (MO c v nil nil)
  else let* p := parse_units s in Ok (MO c v (fst p) (snd p)).

Definition vunit (r : res unit_obj) : res pyval := rmap VUnit r.

(** ** The common pipeline of the MultiUnit operators

    Lines 995-1004, 1023-1031, 1059-1070, 1077-1086, 1114-1123, 1148-1157:
    strip prefixes, expand derived units, combine, cancel, simplify.  [ct], [cb]
    say whether the top and the bottom half are combined (the Unit divisions
    combine one half only). *)
Definition reduce_tail (ct cb : bool) (top bot : half) : res (half * half) :=
  let* d := deconstruct_units false top bot in
  let '(t, b) := d in
  let t := if ct then combine_units t else t in
  let b := if cb then combine_units b else b in
  let '(t, b) := cancel_units t b in
  simplify_units t b.

Definition reduce (ct cb : bool) (top bot : half) : res (half * half * T) :=
  let* p := deconstruct_unit_prefixes top bot in
  let '(t, b, f) := p in
  let* r := reduce_tail ct cb t b in
  Ok (fst r, snd r, f).

(** [Unit(v, name, exponent)] of the plain class. *)
Definition plain (v : T) (x : bu) (e : expo) : pyval := VUnit (UO UUnit v (bname x) e).

(** Result shapes, units.py:1006-1018, 1033-1045, 1125-1136: a number when all
    units cancel, a Unit when one unit is left, a MultiUnit otherwise. *)
Definition shape_div (v : T) (t b : half) : pyval :=
  match t, b with
  | nil, nil => VNum v
  | [x], nil => plain v x (bexp x)
  | nil, [x] => plain v x (eopp (bexp x))
  | _, _ => VMulti (MO MMulti v t b)
  end.

(** Units.py:1087-1095: as above, but a single bottom unit stays a MultiUnit. *)
Definition shape_mul (v : T) (t b : half) : pyval :=
  match t, b with
  | nil, nil => VNum v
  | [x], nil => plain v x (bexp x)
  | _, _ => VMulti (MO MMulti v t b)
  end.

(** ** Operators of MultiUnit *)

(** MultiUnit.__mul__, units.py:1052-1099.  The last branch builds a TypeError
    without raising it, so the method returns None.  In the Unit branch (lines
    1087-1095) the prefix factor is not used. *)
Definition multi_mul (a : multi_obj) (o : pyval) : res pyval :=
  match o with
  | VMulti b =>
      let* r := reduce true true (mtop a ++ mtop b) (mbot a ++ mbot b) in
      let '(t, bt, f) := r in
      Ok (VMulti (MO MMulti (nmul (nmul (mv a) (mv b)) f) t bt))
  | VUnit u =>
      let* r := reduce true true (mtop a ++ [BU (un u) (ue u)]) (mbot a) in
      let '(t, bt, _) := r in
      Ok (shape_mul (nmul (uv u) (mv a)) t bt)
  | VNum x => Ok (VMulti (MO MMulti (nmul (mv a) x) (mtop a) (mbot a)))
  | VNone | VObj => Ok VNone
  end.

(** MultiUnit.__truediv__, units.py:984-1050; the last branch returns None. *)
Definition multi_div (a : multi_obj) (o : pyval) : res pyval :=
  match o with
  | VMulti b =>
      if half_eqb (mtop a) (mtop b) && half_eqb (mbot a) (mbot b) then
        rmap VNum (pydiv (mv a) (mv b))
      else
        let* r := reduce true true (mtop a ++ mbot b) (mbot a ++ mtop b) in
        let '(t, bt, f) := r in
        let* q := pydiv (mv a) (mv b) in
        Ok (shape_div (nmul q f) t bt)
  | VUnit u =>
      let* r := reduce false true (mtop a) (mbot a ++ [BU (un u) (ue u)]) in
      let '(t, bt, f) := r in
      let* q := pydiv (mv a) (uv u) in
      Ok (shape_div (nmul q f) t bt)
  | VNum x =>
      let* q := pydiv (mv a) x in
      Ok (VMulti (MO MMulti q (mtop a) (mbot a)))
  | VNone | VObj => Ok VNone
  end.

(** MultiUnit.__rtruediv__, units.py:1101-1140; the prefix factor is not used. *)
Definition multi_rdiv (a : multi_obj) (o : pyval) : res pyval :=
  match o with
  | VNum x =>
      let* q := pydiv x (mv a) in
      Ok (VMulti (MO MMulti q (mbot a) (mtop a)))
  | VUnit u =>
      let* r := reduce true false (mbot a ++ [BU (un u) (ue u)]) (mtop a) in
      let '(t, bt, _) := r in
      let* q := pydiv (uv u) (mv a) in
      Ok (shape_div q t bt)
  | _ => Raise ETypeError
  end.

(** MultiUnit.__rmul__, units.py:1141-1168; only a number on the left reaches it
    from [py_mul] (Unit.__mul__ handles units itself). *)
Definition multi_rmul (a : multi_obj) (o : pyval) : res pyval :=
  match o with
  | VNum x => Ok (VMulti (MO MMulti (nmul x (mv a)) (mtop a) (mbot a)))
  | VUnit u =>
      let* r := reduce true true (mtop a ++ [BU (un u) (ue u)]) (mbot a) in
      let '(t, bt, _) := r in
      Ok (shape_mul (nmul (uv u) (mv a)) t bt)
  | _ => Raise ETypeError
  end.

(** MultiUnit.__pow__, units.py:1169-1186, with a number as exponent; prefixes
    are not stripped here. *)
Definition scale_half (k : expo) (l : half) : half :=
  map (fun x => BU (bname x) (emul (bexp x) k)) l.
Definition multi_pow (a : multi_obj) (k : expo) : res pyval :=
  let* r := reduce_tail true true (scale_half k (mtop a)) (scale_half k (mbot a)) in
  let* v := npow (mv a) (ev k) in
  Ok (VMulti (MO MMulti v (fst r) (snd r))).

(** MultiUnit.__add__, __sub__, __neg__, __eq__: units.py:968-983, 1188-1189, 961-967. *)
Definition multi_add (a : multi_obj) (o : pyval) : res pyval :=
  match o with
  | VMulti b =>
      if mcls_eqb (mc a) (mc b) then
        if half_eqb (mtop a) (mtop b) && half_eqb (mbot a) (mbot b)
        then Ok (VMulti (MO MMulti (nadd (mv a) (mv b)) (mtop a) (mbot a)))
        else Raise ETypeError
      else Raise ETypeError
  | _ => Raise ETypeError
  end.
Definition multi_sub (a : multi_obj) (o : pyval) : res pyval :=
  match o with
  | VMulti b =>
      if half_eqb (mtop a) (mtop b) && half_eqb (mbot a) (mbot b)
      then Ok (VMulti (MO MMulti (nsub (mv a) (mv b)) (mtop a) (mbot a)))
      else Raise ETypeError
  | _ => Raise ETypeError
  end.
Definition multi_neg (a : multi_obj) : pyval :=
  VMulti (MO (mc a) (nopp (mv a)) (mtop a) (mbot a)).
Definition multi_eq (a b : multi_obj) : bool :=
  mcls_eqb (mc a) (mc b) && neqb (mv a) (mv b)
  && set_eqb (mtop a) (mtop b) && set_eqb (mbot a) (mbot b).

(** ** Operators of Unit *)

(** isinstance(other, self.__class__): every Unit class is a direct subclass of Unit. *)
Definition ucls_sub (c d : ucls) : bool := ucls_eqb d UUnit || ucls_eqb c d.

(** Unit.__add__ and __sub__, units.py:187-206.  Adding a number rebuilds the
    object without its exponent. *)
Definition unit_addsub (op : T -> T -> T) (a : unit_obj) (o : pyval) : res pyval :=
  match o with
  | VUnit b =>
      if ucls_sub (uc b) (uc a) then
        if String.eqb (un a) (un b) && eeqb (ue a) (ue b)
        then vunit (mk_unit (uc a) (op (uv a) (uv b)) (un a) (ue a))
        else Raise ETypeError
      else Raise ETypeError
  | VNum x => vunit (mk_unit (uc a) (op (uv a) x) (un a) (eint 1))
  | _ => Raise ETypeError
  end.

(** Unit.__mul__, units.py:224-237.  Two units of different class or name are
    put into a MultiUnit without their exponents (line 231); a number rebuilds
    the object without its exponent (line 235). *)
Definition unit_mul (a : unit_obj) (o : pyval) : res pyval :=
  match o with
  | VUnit b =>
      if ucls_eqb (uc a) (uc b) && String.eqb (un a) (un b) then
        vunit (mk_unit (uc a) (nmul (uv a) (uv b)) (un a) (eadd (ue a) (ue b)))
      else
        Ok (VMulti (MO MMulti (nmul (uv a) (uv b))
                       [BU (un a) (eint 1); BU (un b) (eint 1)] nil))
  | VMulti m => multi_mul m (VUnit a)
  | VNum x => vunit (mk_unit (uc a) (nmul (uv a) x) (un a) (eint 1))
  | _ => Raise ETypeError
  end.

(** Unit.__rmul__, units.py:239-243. *)
Definition unit_rmul (a : unit_obj) (o : pyval) : res pyval :=
  match o with
  | VNum x => vunit (mk_unit (uc a) (nmul (uv a) x) (un a) (eint 1))
  | _ => Raise ETypeError
  end.

(** Unit.__truediv__, units.py:207-223. *)
Definition unit_div (a : unit_obj) (o : pyval) : res pyval :=
  match o with
  | VUnit b =>
      let* q := pydiv (uv a) (uv b) in
      if String.eqb (un a) (un b) then
        let r := esub (ue a) (ue b) in
        if e_is r 0 then Ok (VNum q)
        else vunit (mk_unit (uc a) q (un a) r)
      else Ok (VMulti (MO MMulti q [BU (un a) (ue a)] [BU (un b) (ue b)]))
  | VNum x =>
      let* q := pydiv (uv a) x in
      vunit (mk_unit (uc a) q (un a) (ue a))
  | VMulti m => multi_rdiv m (VUnit a)
  | _ => Raise ETypeError
  end.

(** Unit.__pow__, __neg__, __eq__: units.py:245-252, 180-186. *)
Definition unit_pow (a : unit_obj) (k : expo) : res pyval :=
  let* v := npow (uv a) (ev k) in
  vunit (mk_unit (uc a) v (un a) (emul (ue a) k)).
Definition unit_neg (a : unit_obj) : res pyval :=
  vunit (mk_unit (uc a) (nopp (uv a)) (un a) (ue a)).
Definition unit_eq (a b : unit_obj) : bool :=
  (ucls_eqb (uc a) (uc b) || ucls_eqb (uc b) UUnit)
  && neqb (uv a) (uv b) && String.eqb (un a) (un b) && eeqb (ue a) (ue b).

(** ** Python's operator dispatch

    [a * b] calls [type(a).__mul__]; the reflected method of [b] is tried when
    that is missing or the left operand is a number or a foreign object.  No
    class overrides a reflected method of its base class, so the rule that
    prefers the reflected method of a subclass never applies to arithmetic. *)
Definition py_mul (a b : pyval) : res pyval :=
  match a, b with
  | VUnit u, _ => unit_mul u b
  | VMulti m, _ => multi_mul m b
  | VNum x, VNum y => Ok (VNum (nmul x y))
  | _, VUnit u => unit_rmul u a
  | _, VMulti m => multi_rmul m a
  | _, _ => Raise ETypeError
  end.

(** Unit has no __rtruediv__. *)
Definition py_div (a b : pyval) : res pyval :=
  match a, b with
  | VUnit u, _ => unit_div u b
  | VMulti m, _ => multi_div m b
  | VNum x, VNum y => rmap VNum (pydiv x y)
  | _, VMulti m => multi_rdiv m a
  | _, _ => Raise ETypeError
  end.

(** Neither class has __radd__ or __rsub__. *)
Definition py_add (a b : pyval) : res pyval :=
  match a, b with
  | VUnit u, _ => unit_addsub nadd u b
  | VMulti m, _ => multi_add m b
  | VNum x, VNum y => Ok (VNum (nadd x y))
  | _, _ => Raise ETypeError
  end.
Definition py_sub (a b : pyval) : res pyval :=
  match a, b with
  | VUnit u, _ => unit_addsub nsub u b
  | VMulti m, _ => multi_sub m b
  | VNum x, VNum y => Ok (VNum (nsub x y))
  | _, _ => Raise ETypeError
  end.

(** [a ** k] for a number k. *)
Definition py_pow (a : pyval) (k : expo) : res pyval :=
  match a with
  | VNum x => rmap VNum (npow x (ev k))
  | VUnit u => unit_pow u k
  | VMulti m => multi_pow m k
  | _ => Raise ETypeError
  end.
Definition py_neg (a : pyval) : res pyval :=
  match a with
  | VNum x => Ok (VNum (nopp x))
  | VUnit u => unit_neg u
  | VMulti m => Ok (multi_neg m)
  | _ => Raise ETypeError
  end.

(** [a == b]: when the class of [b] is a proper subclass of that of [a], Python
    asks [b.__eq__(a)] first; the methods always answer, so that is final.
    Numbers and foreign objects never equal unit objects.  [VObj] stands for one
    foreign object, equal to itself. *)
Definition py_eq (a b : pyval) : bool :=
  match a, b with
  | VNum x, VNum y => neqb x y
  | VNone, VNone => true
  | VObj, VObj => true
  | VUnit u, VUnit w =>
      if ucls_eqb (uc u) UUnit && negb (ucls_eqb (uc w) UUnit) then unit_eq w u
      else unit_eq u w
  | VMulti m, VMulti w => multi_eq m w
  | _, _ => false
  end.

(** ** Conversions *)

Variable tb : tables T.

(** Dictionary access [self.to_standard_conversions[k]]. *)
Definition tab_get (t : option (table T)) (k : string) : res (conv T) :=
  match t with
  | None => Raise EAttributeError
  | Some d => match dict_get d k with None => Raise EKeyError | Some f => Ok f end
  end.

Definition to_val (c : ucls) (n : string) (v : T) (ex : expo) : res T :=
  let* f := tab_get (to_standard tb c) n in let* x := f v in npow x (ev ex).
Definition from_val (c : ucls) (n : string) (v : T) (ex : expo) : res T :=
  let* f := tab_get (from_standard tb c) n in let* x := f v in npow x (ev ex).

(** Unit.convert_to after the target has been taken apart, units.py:277-300:
    target unit, the unit name of the result, and the exponent. *)
Definition unit_convert_core (u : unit_obj) (target ret : string) (ex : expo) : res unit_obj :=
  if String.eqb (un u) target then Ok u
  else
    match standard (uc u) with
    | None => Raise EAttributeError
    | Some std =>
        if String.eqb target std then
          let* v := to_val (uc u) (un u) (uv u) ex in mk_unit (uc u) v ret ex
        else if String.eqb (un u) std then
          let* v := from_val (uc u) target (uv u) ex in mk_unit (uc u) v ret ex
        else
          let* s := match to_val (uc u) (un u) (uv u) ex with
                    | Raise EKeyError => Raise EUnitConversionError
                    | r => r
                    end in
          let* v := from_val (uc u) target s ex in mk_unit (uc u) v ret ex
    end.

(** Unit.convert_to, units.py:253-300.  The in-place variant stores this result
    in self (and returns None). *)
Definition unit_convert_to (u : unit_obj) (target : string) : res unit_obj :=
  if mem_str (un u) UNIT_COMPOSITES then
    match split_on "^" target with
    | [r; e] => let* q := py_float e in unit_convert_core u target r (eflt q)
    | _ => Raise EValueError
    end
  else if has_char "^" target then
    match split_on "^" target with
    | [r; e] => let* q := py_float e in unit_convert_core u r r (eflt q)
    | _ => Raise EValueError
    end
  else unit_convert_core u target target (eint 1).

(** get_unit_class, units.py:753-769. *)
Definition get_unit_class (n : string) : res ucls :=
  match dict_get UNIT_REGISTRY n with None => Raise EKeyError | Some c => Ok c end.

(** base_to_unit, units.py:815-819, on one half. *)
Definition base_to_unit (l : half) : res (list unit_obj) :=
  mapM (fun x => let* c := get_unit_class (bname x) in
                 mk_unit c (nq 1) (bname x) (bexp x)) l.

(** convert_and_get_factor, units.py:821-832.  On line 831 the target is the text
    standard^exponent; taking it apart again gives back the standard unit and
    the exponent as a float (float(str(e)) = e), unless the standard unit itself
    contains ^ (m^3, m^2): then the split has three parts and raises ValueError. *)
Definition convert_and_get_factor (u : unit_obj) : res unit_obj :=
  if mem_str (un u) ["K"; "C"] then
    Ok (UO (uc u) (nmul (uv u) (nq (this (ev (ue u))))) (un u) (ue u))
  else if mem_str (un u) ["R"; "F"] then
    Ok (UO (uc u) (nmul (uv u) (nmul (nq (5 # 9)) (nq (this (ev (ue u)))))) (un u) (ue u))
  else
    match standard (uc u) with
    | None => Raise EAttributeError
    | Some std =>
        if e_is (ue u) 1 then unit_convert_to u std
        else if has_char "^" std then Raise EValueError
        else unit_convert_core u std std (eflt (ev (ue u)))
    end.

(** The loops on units.py:873-879 and 888-893: convert every unit and multiply
    the factor by its value, or by one over its value for the bottom half. *)
Fixpoint factor_loop (inv : bool) (l : list unit_obj) (f : T) : res (list unit_obj * T) :=
  match l with
  | nil => Ok (nil, f)
  | u :: l' =>
      let* u' := convert_and_get_factor u in
      let* g := if inv then pydiv (nq 1) (uv u') else Ok (uv u') in
      let* r := factor_loop inv l' (nmul f g) in
      Ok (u' :: fst r, snd r)
  end.

Definition as_bu (l : list unit_obj) : half := map (fun u => BU (un u) (ue u)) l.

(** Lines 855-858 / 862-864: strip prefixes, expand once, look up the classes. *)
Definition conv_prepare (top bot : half) : res (list unit_obj * list unit_obj * T) :=
  let* p := deconstruct_unit_prefixes top bot in
  let '(t, b, f) := p in
  let* d := deconstruct_units true t b in
  let* t' := base_to_unit (fst d) in
  let* b' := base_to_unit (snd d) in
  Ok (t', b', f).

(** Lines 872-883 / 887-896: factor to standard units, then full expansion. *)
Definition conv_factor (t b : list unit_obj) (f : T)
  : res (list unit_obj * list unit_obj * T) :=
  let* r1 := factor_loop false t (nmul (nq 1) f) in
  let* r2 := factor_loop true b (snd r1) in
  let* d := deconstruct_units false (as_bu (fst r1)) (as_bu (fst r2)) in
  let* t' := base_to_unit (fst d) in
  let* b' := base_to_unit (snd d) in
  Ok (t', b', snd r2).

(** Lines 900-914: exponent total of one class over both halves.  Simplification:
    the two dictionaries (zero entries removed) are equal exactly when the totals
    of all classes agree, which is what [same_dims] tests. *)
Definition class_total (c : ucls) (t b : list unit_obj) : Qc :=
  let s := fold_right (fun u a =>
    if match get_unit_class (un u) with Ok d => ucls_eqb c d | Raise _ => false end
    then (ev (ue u) + a)%Qc else a) (qc 0) in
  (s t - s b)%Qc.
Definition all_ucls : list ucls :=
  [UUnit; Temperature; Pressure; Length; Time; Energy; Mass; Current; Amount;
   Force; Volume; Area].
Definition classes_known (l : list unit_obj) : res (list ucls) :=
  mapM (fun u => get_unit_class (un u)) l.
Definition same_dims (t b t' b' : list unit_obj) : bool :=
  forallb (fun c => Qc_eq_bool (class_total c t b) (class_total c t' b')) all_ucls.

(** MultiUnit.convert_to, units.py:835-922; [self.__class__(v, unit)] parses the
    target again.  The in-place variant stores this result in self. *)
Definition multi_convert_to (a : multi_obj) (target : string) : res multi_obj :=
  let* p := parse_units target in
  let* r := conv_prepare (fst p) (snd p) in
  let '(rt, rb, rf) := r in
  let* l := conv_prepare (mtop a) (mbot a) in
  let '(lt, lb, lf) := l in
  let* l := conv_factor lt lb lf in
  let '(lt, lb, lf) := l in
  let* r := conv_factor rt rb rf in
  let '(rt, rb, rf) := r in
  let* _ := classes_known (rt ++ rb ++ lt ++ lb) in
  if same_dims lt lb rt rb then
    let* k := pydiv lf rf in
    mk_multi (mc a) (nmul (mv a) k) target
  else Raise EUnitConversionError.

(** ** Unit checks *)

(** check_units, units.py:1465-1481.  The error message for a MultiUnit refers to
    [u._unit], which a MultiUnit does not have (AttributeError). *)
Definition check_units (u : pyval) (s : string) : res unit :=
  match u with
  | VNum _ | VNone | VObj => Ok tt
  | VUnit x => if String.eqb (un x) s then Ok tt else Raise EIncorrectUnits
  | VMulti m =>
      let* p := parse_units s in
      if half_eqb (mtop m) (fst p) && half_eqb (mbot m) (snd p) then Ok tt
      else Raise EAttributeError
  end.

(** ** Registering units *)

Definition set_table (f : ucls -> option (table T)) (c : ucls) (k : string) (g : conv T)
  : ucls -> option (table T) :=
  fun d => if ucls_eqb d c
           then match f d with None => None | Some t => Some (t ++ [(k, g)]) end
           else f d.

Definition compose (f g : conv T) : conv T := fun x => let* y := g x in f y.

(** register_unit_from_existing, units.py:127-141.  The from-function of the
    existing unit is applied after the given from-function (line 134). *)
Definition register_unit (new existing : string) (to_func from_func : conv T)
  : res (tables T) :=
  let* c := get_unit_class existing in
  let* fs :=
    if match standard c with Some s => negb (String.eqb existing s) | None => true end then
      let* et := tab_get (to_standard tb c) existing in
      let* ef := tab_get (from_standard tb c) existing in
      Ok (compose et to_func, compose ef from_func)
    else Ok (to_func, from_func) in
  match to_standard tb c, from_standard tb c with
  | Some _, Some _ =>
      Ok (Tables (set_table (to_standard tb) c new (fst fs))
                 (set_table (from_standard tb) c new (snd fs)))
  | _, _ => Raise EAttributeError
  end.

End Model.
Arguments unit_obj T : clear implicits.
Arguments multi_obj T : clear implicits.
Arguments pyval T : clear implicits.
