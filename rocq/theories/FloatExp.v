(** * FloatExp: exponents rounded as Python's floats

    Units.v computes with exact exponents.  Here the same functions, in the same
    order and with the same branches, take the arithmetic of exponents as a
    parameter; [exact_ops] gives back the functions of UnitsStruct.v and Units.v,
    [float_ops] rounds every result to binary64, to nearest with ties to even, as
    Python does when one operand is a float.  Exponents beyond the range of
    binary64 (infinities) are not modelled.  Line numbers are those given at the
    functions of the same name without the prefix g_. *)
From Coq Require Import String Ascii List ZArith QArith Qcanon Qround Bool.
From Verif Require Import Py Num UnitsData UnitsStruct Units.
Import ListNotations.
Local Open Scope string_scope.
Local Open Scope list_scope.

(** ** Rounding to binary64 *)

(** The quotient of two nonnegative numbers, to the nearest whole number, ties to even. *)
Definition div_even (n d : Z) : Z :=
  let q := (n / d)%Z in
  let r := (n mod d)%Z in
  match (2 * r ?= d)%Z with
  | Lt => q
  | Gt => q + 1
  | Eq => if Z.even q then q else q + 1
  end%Z.
(** The exponent of the last of the 53 bits of n/d. *)
Definition last_bit (n d : Z) : Z :=
  let s := (Z.log2 n - Z.log2 d)%Z in
  let full := if (0 <=? s)%Z then (d * 2 ^ s <=? n)%Z else (d <=? n * 2 ^ (- s))%Z in
  Z.max (-1074) (if full then s - 52 else s - 53)%Z.
Definition fl_pos (n d : Z) : Q :=
  let e := last_bit n d in
  if (0 <=? e)%Z then inject_Z (div_even n (d * 2 ^ e) * 2 ^ e)
  else (div_even (n * 2 ^ (- e)) d # Z.to_pos (2 ^ (- e))).
Definition fl (q : Qc) : Qc :=
  let n := Qnum (this q) in
  let d := Zpos (Qden (this q)) in
  if (n =? 0)%Z then qc 0
  else if (0 <? n)%Z then Q2Qc (fl_pos n d)
  else Q2Qc (- fl_pos (- n) d).

(** ** Arithmetic of exponents *)
Record eops := EOps {
  e_add : expo -> expo -> expo;
  e_sub : expo -> expo -> expo;
  e_mul : expo -> expo -> expo;
  e_div : expo -> expo -> expo;
  e_lit : Qc -> Qc              (* float(text) *)
}.
Definition exact_ops : eops := EOps eadd esub emul ediv (fun q => q).

(** An operand as a float. *)
Definition tof (a : expo) : Qc := if isf a then ev a else fl (ev a).
Definition float_op (op : Qc -> Qc -> Qc) (a b : expo) : expo :=
  if isf a || isf b then eflt (fl (op (tof a) (tof b))) else Ex false (op (ev a) (ev b)).
Definition float_div (a b : expo) : expo :=
  if isf a || isf b then eflt (fl (tof a / tof b)%Qc) else eflt (fl (ev a / ev b)%Qc).
Definition float_ops : eops := EOps (float_op Qcplus) (float_op Qcminus) (float_op Qcmult) float_div fl.

(** ** The functions of UnitsStruct.v *)
Section Struct.
Variable E : eops.

Fixpoint g_absorb (u1 : bu) (bots : half) : bu * half :=
  match bots with
  | nil => (u1, nil)
  | u2 :: bs =>
      if String.eqb (bname u1) (bname u2) && negb (e_is (bexp u1) 0) then
        let '(u1', bs') := g_absorb (BU (bname u1) (e_sub E (bexp u1) (bexp u2))) bs in
        (u1', BU (bname u2) (eint 0) :: bs')
      else
        let '(u1', bs') := g_absorb u1 bs in (u1', u2 :: bs')
  end.
Fixpoint g_cancel_loop (tops bots : half) : half * half :=
  match tops with
  | nil => (nil, bots)
  | u1 :: ts =>
      let '(u1', bots1) := g_absorb u1 bots in
      let '(ts', bots2) := g_cancel_loop ts bots1 in
      (u1' :: ts', bots2)
  end.
Definition g_cancel_units (top bot : half) : half * half :=
  let '(t, b) := g_cancel_loop top bot in
  (filter (fun u => eltb (eint 0) (bexp u)) t,
   map (fun u => BU (bname u) (eopp (bexp u))) (filter (fun u => eltb (bexp u) (eint 0)) t)
     ++ filter (fun u => negb (e_is (bexp u) 0)) b).

Definition g_combine_step (i j : nat) (l : half) : half :=
  match nth_error l i, nth_error l j with
  | Some u1, Some u2 =>
      if String.eqb (bname u1) (bname u2) && negb (Nat.eqb i j) then
        set_nth j (BU (bname u2) (eint 0))
          (set_nth i (BU (bname u1) (e_add E (bexp u1) (bexp u2))) l)
      else l
  | _, _ => l
  end.
Definition g_combine_units (l : half) : half :=
  let idx := seq 0 (List.length l) in
  fold_left (fun l i => fold_left (fun l j => g_combine_step i j l) idx l) idx l.

Definition g_parse_factor (s : string) : res bu :=
  if has_char "^" s then
    match split_on "^" s with
    | [u; e] => let* q := py_float e in Ok (BU u (eflt (e_lit E q)))
    | _ => Raise EValueError
    end
  else Ok (BU s (eflt (qc 1))).
Definition g_parse_half (s : string) : res half :=
  mapM g_parse_factor (split_on "*" (strip s)).
Definition g_parse_units (s : string) : res (half * half) :=
  let '(tops, bot) :=
    match split_on "/" s with
    | [t; b] =>
        match g_parse_half b with
        | Ok bs => (Ok t, bs)
        | Raise EValueError => (Ok s, nil)
        | Raise e => (Raise e, nil)
        end
    | _ => (Ok s, nil)
    end in
  let* t := tops in
  let* top := g_parse_half t in
  Ok (top, bot).

Definition g_expand (d : string) (e : expo) : res (half * half) :=
  let* p := g_parse_units d in
  let f := map (fun x => BU (bname x) (e_mul E (bexp x) e)) in
  Ok (f (fst p), f (snd p)).
Fixpoint g_expand_loop (fuel : nat) (pre rest other : half) (hit : bool)
  : res (half * half * bool) :=
  match rest with
  | nil => Ok (pre, other, hit)
  | x :: rest' =>
      match fuel with
      | O => Raise OutOfFuel
      | S fuel' =>
          match dict_get DECONSTRUCTABLE_UNITS (bname x) with
          | None => g_expand_loop fuel' (pre ++ [x]) rest' other hit
          | Some d =>
              let* p := g_expand d (bexp x) in
              match rest' ++ fst p with
              | nil => Ok (pre, other ++ snd p, true)
              | y :: ys => g_expand_loop fuel' (pre ++ [y]) ys (other ++ snd p) true
              end
          end
      end
  end.
Definition g_deconstruct_round (top bot : half) : res (half * half * bool) :=
  let* r1 := g_expand_loop (weights top) nil top bot false in
  let '(top1, bot1, h1) := r1 in
  let* r2 := g_expand_loop (weights bot1) nil bot1 top1 false in
  let '(bot2, top2, h2) := r2 in
  Ok (top2, bot2, h1 || h2).
Fixpoint g_deconstruct_loop (fuel : nat) (one_pass : bool) (top bot : half) : res (half * half) :=
  match fuel with
  | O => Raise OutOfFuel
  | S fuel' =>
      let* r := g_deconstruct_round top bot in
      let '(t, b, hit) := r in
      if hit && negb one_pass then g_deconstruct_loop fuel' one_pass t b
      else Ok (t, b)
  end.
Definition g_deconstruct_units (one_pass : bool) (top bot : half) : res (half * half) :=
  g_deconstruct_loop (S (weights top + weights bot)) one_pass top bot.

Definition g_count_matches (defn l : half) (n : expo) : expo :=
  fold_left (fun n u1 => fold_left (fun n u2 =>
     if String.eqb (bname u1) (bname u2) then
       let m := e_div E (bexp u2) (bexp u1) in if eltb m n then m else n
     else n) l n) defn n.
Definition g_match_one (top bot : half) (kd : string * string) : res (option (string * expo)) :=
  let* p := g_parse_units (snd kd) in
  let '(dt, db) := p in
  if names_sub dt top && names_sub db bot && exps_ok dt top && exps_ok db bot then
    Ok (Some (fst kd, g_count_matches db bot (g_count_matches dt top (eint 100))))
  else Ok None.
(** sum(matches_dict.values()), from left to right, units.py:714. *)
Definition g_sum_matches (l : list (string * expo)) : expo :=
  fold_left (fun a x => e_add E a (snd x)) l (eint 0).
Definition g_simplify_round (top bot : half) : res (option (half * half)) :=
  let* ms := mapM (g_match_one top bot) DECONSTRUCTABLE_UNITS in
  match somes ms with
  | nil => Ok None
  | m :: ms' =>
      if e_is (g_sum_matches (m :: ms')) 0 then Ok None
      else
        let '(u, k) := best ms' m in
        match dict_get DECONSTRUCTABLE_UNITS u with
        | None => Raise EKeyError
        | Some d =>
            let* p := g_expand d k in
            let '(t, b) := g_cancel_units (top ++ snd p) (bot ++ fst p) in
            Ok (Some (t ++ [BU u k], b))
        end
  end.
Fixpoint g_simplify_loop (fuel : nat) (top bot : half) : res (half * half) :=
  match fuel with
  | O => Raise OutOfFuel
  | S fuel' =>
      let* r := g_simplify_round top bot in
      match r with
      | None => Ok (top, bot)
      | Some (t, b) => g_simplify_loop fuel' t b
      end
  end.
Fixpoint g_common_simpl (l : list (string * string)) (top bot : half) : res (half * half) :=
  match l with
  | nil => Ok (top, bot)
  | (k, v) :: l' =>
      let* p := g_parse_units k in
      if half_eqb (fst p) top && half_eqb (snd p) bot then g_parse_units v
      else g_common_simpl l' top bot
  end.
Definition g_simplify_units (top bot : half) : res (half * half) :=
  let* r := g_simplify_loop (simplify_fuel top bot) top bot in
  g_common_simpl UNIT_SIMPLIFICATIONS (fst r) (snd r).

Definition g_reduce_tail (ct cb : bool) (top bot : half) : res (half * half) :=
  let* d := g_deconstruct_units false top bot in
  let '(t, b) := d in
  let t := if ct then g_combine_units t else t in
  let b := if cb then g_combine_units b else b in
  let '(t, b) := g_cancel_units t b in
  g_simplify_units t b.
Definition g_scale_half (k : expo) (l : half) : half :=
  map (fun x => BU (bname x) (e_mul E (bexp x) k)) l.
End Struct.

(** ** The operators of Units.v *)
Section Ops.
Variable E : eops.
Context {T : Type} {N : Num T}.

Definition g_reduce (ct cb : bool) (top bot : half) : res (half * half * T) :=
  let* p := deconstruct_unit_prefixes top bot in
  let '(t, b, f) := p in
  let* r := g_reduce_tail E ct cb t b in
  Ok (fst r, snd r, f).
Definition g_split_caret (c : ucls) (v : T) (n : string) (e : expo) : res (unit_obj T) :=
  if has_char "^" n then
    match split_on "^" n with
    | [n'; e'] => let* q := py_float e' in Ok (UO c v n' (eflt (e_lit E q)))
    | _ => Raise EValueError
    end
  else Ok (UO c v n e).
Definition g_mk_unit (c : ucls) (v : T) (n : string) (e : expo) : res (unit_obj T) :=
  match c with
  | Pressure => if mem_str n PressureUnits then Ok (UO c v n e) else Raise ETypeError
  | Current => if mem_str n CurrentUnits then Ok (UO c v n e) else Raise ETypeError
  | Amount => if mem_str n AmountUnits then Ok (UO c v n e) else Raise ETypeError
  | Force => if mem_str n ForceUnits then Ok (UO c v n e) else Raise ETypeError
  | Volume | Area => g_split_caret c v n e
  | _ => Ok (UO c v n e)
  end.
Definition g_mk_multi (c : mcls) (v : T) (s : string) : res (multi_obj T) :=
  if String.eqb s EmptyString then Ok (MO c v nil nil)
  else let* p := g_parse_units E s in Ok (MO c v (fst p) (snd p)).

Definition g_multi_mul (a : multi_obj T) (o : pyval T) : res (pyval T) :=
  match o with
  | VMulti b =>
      let* r := g_reduce true true (mtop a ++ mtop b) (mbot a ++ mbot b) in
      let '(t, bt, f) := r in
      Ok (VMulti (MO MMulti (nmul (nmul (mv a) (mv b)) f) t bt))
  | VUnit u =>
      let* r := g_reduce true true (mtop a ++ [BU (un u) (ue u)]) (mbot a) in
      let '(t, bt, _) := r in
      Ok (shape_mul (nmul (uv u) (mv a)) t bt)
  | VNum x => Ok (VMulti (MO MMulti (nmul (mv a) x) (mtop a) (mbot a)))
  | VNone | VObj => Ok VNone
  end.
Definition g_multi_div (a : multi_obj T) (o : pyval T) : res (pyval T) :=
  match o with
  | VMulti b =>
      if half_eqb (mtop a) (mtop b) && half_eqb (mbot a) (mbot b) then
        rmap VNum (pydiv (mv a) (mv b))
      else
        let* r := g_reduce true true (mtop a ++ mbot b) (mbot a ++ mtop b) in
        let '(t, bt, f) := r in
        let* q := pydiv (mv a) (mv b) in
        Ok (shape_div (nmul q f) t bt)
  | VUnit u =>
      let* r := g_reduce false true (mtop a) (mbot a ++ [BU (un u) (ue u)]) in
      let '(t, bt, f) := r in
      let* q := pydiv (mv a) (uv u) in
      Ok (shape_div (nmul q f) t bt)
  | VNum x =>
      let* q := pydiv (mv a) x in
      Ok (VMulti (MO MMulti q (mtop a) (mbot a)))
  | VNone | VObj => Ok VNone
  end.
Definition g_multi_rdiv (a : multi_obj T) (o : pyval T) : res (pyval T) :=
  match o with
  | VNum x =>
      let* q := pydiv x (mv a) in
      Ok (VMulti (MO MMulti q (mbot a) (mtop a)))
  | VUnit u =>
      let* r := g_reduce true false (mbot a ++ [BU (un u) (ue u)]) (mtop a) in
      let '(t, bt, _) := r in
      let* q := pydiv (uv u) (mv a) in
      Ok (shape_div q t bt)
  | _ => Raise ETypeError
  end.
Definition g_multi_pow (a : multi_obj T) (k : expo) : res (pyval T) :=
  let* r := g_reduce_tail E true true (g_scale_half E k (mtop a)) (g_scale_half E k (mbot a)) in
  let* v := npow (mv a) (ev k) in
  Ok (VMulti (MO MMulti v (fst r) (snd r))).

Definition g_unit_mul (a : unit_obj T) (o : pyval T) : res (pyval T) :=
  match o with
  | VUnit b =>
      if ucls_eqb (uc a) (uc b) && String.eqb (un a) (un b) then
        vunit (g_mk_unit (uc a) (nmul (uv a) (uv b)) (un a) (e_add E (ue a) (ue b)))
      else
        Ok (VMulti (MO MMulti (nmul (uv a) (uv b))
                       [BU (un a) (eint 1); BU (un b) (eint 1)] nil))
  | VMulti m => g_multi_mul m (VUnit a)
  | VNum x => vunit (g_mk_unit (uc a) (nmul (uv a) x) (un a) (eint 1))
  | _ => Raise ETypeError
  end.
Definition g_unit_div (a : unit_obj T) (o : pyval T) : res (pyval T) :=
  match o with
  | VUnit b =>
      let* q := pydiv (uv a) (uv b) in
      if String.eqb (un a) (un b) then
        let r := e_sub E (ue a) (ue b) in
        if e_is r 0 then Ok (VNum q)
        else vunit (g_mk_unit (uc a) q (un a) r)
      else Ok (VMulti (MO MMulti q [BU (un a) (ue a)] [BU (un b) (ue b)]))
  | VNum x =>
      let* q := pydiv (uv a) x in
      vunit (g_mk_unit (uc a) q (un a) (ue a))
  | VMulti m => g_multi_rdiv m (VUnit a)
  | _ => Raise ETypeError
  end.
Definition g_unit_pow (a : unit_obj T) (k : expo) : res (pyval T) :=
  let* v := npow (uv a) (ev k) in
  vunit (g_mk_unit (uc a) v (un a) (e_mul E (ue a) k)).

Definition g_unit_rmul (a : unit_obj T) (o : pyval T) : res (pyval T) :=
  match o with
  | VNum x => vunit (g_mk_unit (uc a) (nmul (uv a) x) (un a) (eint 1))
  | _ => Raise ETypeError
  end.

(** get_exponent_total, units.py:795-813: both halves are added. *)
Definition g_exponent_total (m : multi_obj T) : expo :=
  fold_left (fun a x => e_add E a (bexp x)) (mbot m) (fold_left (fun a x => e_add E a (bexp x)) (mtop m) (eint 0)).

(** Addition, subtraction, negation and comparison do not compute exponents. *)
Definition g_py_mul (a b : pyval T) : res (pyval T) :=
  match a, b with
  | VUnit u, _ => g_unit_mul u b
  | VMulti m, _ => g_multi_mul m b
  | VNum x, VNum y => Ok (VNum (nmul x y))
  | _, VUnit u => g_unit_rmul u a
  | _, VMulti m => multi_rmul m a
  | _, _ => Raise ETypeError
  end.
Definition g_py_div (a b : pyval T) : res (pyval T) :=
  match a, b with
  | VUnit u, _ => g_unit_div u b
  | VMulti m, _ => g_multi_div m b
  | VNum x, VNum y => rmap VNum (pydiv x y)
  | _, VMulti m => g_multi_rdiv m a
  | _, _ => Raise ETypeError
  end.
Definition g_py_pow (a : pyval T) (k : expo) : res (pyval T) :=
  match a with
  | VNum x => rmap VNum (npow x (ev k))
  | VUnit u => g_unit_pow u k
  | VMulti m => g_multi_pow m k
  | _ => Raise ETypeError
  end.

(** ** Conversions *)
Variable tb : tables T.

Definition g_unit_convert_core (u : unit_obj T) (target ret : string) (ex : expo) : res (unit_obj T) :=
  if String.eqb (un u) target then Ok u
  else
    match standard (uc u) with
    | None => Raise EAttributeError
    | Some std =>
        if String.eqb target std then
          let* v := to_val tb (uc u) (un u) (uv u) ex in g_mk_unit (uc u) v ret ex
        else if String.eqb (un u) std then
          let* v := from_val tb (uc u) target (uv u) ex in g_mk_unit (uc u) v ret ex
        else
          let* s := match to_val tb (uc u) (un u) (uv u) ex with
                    | Raise EKeyError => Raise EUnitConversionError
                    | r => r
                    end in
          let* v := from_val tb (uc u) target s ex in g_mk_unit (uc u) v ret ex
    end.
Definition g_unit_convert_to (u : unit_obj T) (target : string) : res (unit_obj T) :=
  if mem_str (un u) UNIT_COMPOSITES then
    match split_on "^" target with
    | [r; e] => let* q := py_float e in g_unit_convert_core u target r (eflt (e_lit E q))
    | _ => Raise EValueError
    end
  else if has_char "^" target then
    match split_on "^" target with
    | [r; e] => let* q := py_float e in g_unit_convert_core u r r (eflt (e_lit E q))
    | _ => Raise EValueError
    end
  else g_unit_convert_core u target target (eint 1).

Definition g_base_to_unit (l : half) : res (list (unit_obj T)) :=
  mapM (fun x => let* c := get_unit_class (bname x) in
                 g_mk_unit c (nq 1) (bname x) (bexp x)) l.
(** Line 831: float(str(exponent)). *)
Definition g_convert_and_get_factor (u : unit_obj T) : res (unit_obj T) :=
  if mem_str (un u) ["K"; "C"] then
    Ok (UO (uc u) (nmul (uv u) (nq (this (ev (ue u))))) (un u) (ue u))
  else if mem_str (un u) ["R"; "F"] then
    Ok (UO (uc u) (nmul (uv u) (nmul (nq (5 # 9)) (nq (this (ev (ue u)))))) (un u) (ue u))
  else
    match standard (uc u) with
    | None => Raise EAttributeError
    | Some std =>
        if e_is (ue u) 1 then g_unit_convert_to u std
        else if has_char "^" std then Raise EValueError
        else g_unit_convert_core u std std (eflt (e_lit E (ev (ue u))))
    end.
Fixpoint g_factor_loop (inv : bool) (l : list (unit_obj T)) (f : T) : res (list (unit_obj T) * T) :=
  match l with
  | nil => Ok (nil, f)
  | u :: l' =>
      let* u' := g_convert_and_get_factor u in
      let* g := if inv then pydiv (nq 1) (uv u') else Ok (uv u') in
      let* r := g_factor_loop inv l' (nmul f g) in
      Ok (u' :: fst r, snd r)
  end.
Definition g_conv_prepare (top bot : half) : res (list (unit_obj T) * list (unit_obj T) * T) :=
  let* p := deconstruct_unit_prefixes top bot in
  let '(t, b, f) := p in
  let* d := g_deconstruct_units E true t b in
  let* t' := g_base_to_unit (fst d) in
  let* b' := g_base_to_unit (snd d) in
  Ok (t', b', f).
Definition g_conv_factor (t b : list (unit_obj T)) (f : T)
  : res (list (unit_obj T) * list (unit_obj T) * T) :=
  let* r1 := g_factor_loop false t (nmul (nq 1) f) in
  let* r2 := g_factor_loop true b (snd r1) in
  let* d := g_deconstruct_units E false (as_bu (fst r1)) (as_bu (fst r2)) in
  let* t' := g_base_to_unit (fst d) in
  let* b' := g_base_to_unit (snd d) in
  Ok (t', b', snd r2).
(** Lines 900-914: the entry of one class, from 0, in the order of the loops;
    [x += -1*e] rounds as [x - e]. *)
Definition in_class (c : ucls) (u : unit_obj T) : bool :=
  match get_unit_class (un u) with Ok d => ucls_eqb c d | Raise _ => false end.
Definition g_class_total (c : ucls) (t b : list (unit_obj T)) : expo :=
  fold_left (fun a u => if in_class c u then e_sub E a (ue u) else a) b
    (fold_left (fun a u => if in_class c u then e_add E a (ue u) else a) t (eint 0)).
Definition g_same_dims (t b t' b' : list (unit_obj T)) : bool :=
  forallb (fun c => eeqb (g_class_total c t b) (g_class_total c t' b')) all_ucls.
Definition g_multi_convert_to (a : multi_obj T) (target : string) : res (multi_obj T) :=
  let* p := g_parse_units E target in
  let* r := g_conv_prepare (fst p) (snd p) in
  let '(rt, rb, rf) := r in
  let* l := g_conv_prepare (mtop a) (mbot a) in
  let '(lt, lb, lf) := l in
  let* l := g_conv_factor lt lb lf in
  let '(lt, lb, lf) := l in
  let* r := g_conv_factor rt rb rf in
  let '(rt, rb, rf) := r in
  let* _ := classes_known (rt ++ rb ++ lt ++ lb) in
  if g_same_dims lt lb rt rb then
    let* k := pydiv lf rf in
    g_mk_multi (mc a) (nmul (mv a) k) target
  else Raise EUnitConversionError.
End Ops.
