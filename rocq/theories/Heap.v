(** * Heap: the operators with objects, lists and references

    Units.v computes with values.  Here BaseUnit objects, the lists of a
    MultiUnit, Unit objects and MultiUnit objects live in a heap and are shared
    and changed as in units.py.  Temporary objects that nothing refers to
    afterwards are not allocated; lists local to a function are read and written
    as a whole where the order of the writes does not show. *)
From Coq Require Import String Ascii List ZArith QArith Qcanon Bool.
From Verif Require Import Py Num UnitsData UnitsStruct Units.
Import ListNotations.
Local Open Scope string_scope.
Local Open Scope list_scope.

Section Heap.
Context {T : Type} `{Num T}.

(** A MultiUnit object: class, value and references to its two lists. *)
Record mrec := MR { mrc : mcls; mrv : T; mrt : nat; mrb : nat }.
(** References are positions: BaseUnit objects, lists of them, Unit objects and
    MultiUnit objects. *)
Record heap := HP { cells : list bu; lists : list (list nat); uobjs : list (unit_obj T); mobjs : list mrec }.
Inductive hval := HNum (x : T) | HNone | HObj | HUnit (u : nat) | HMulti (m : nat).

Definition M (A : Type) := heap -> res A * heap.
Definition ret {A} (x : A) : M A := fun h => (Ok x, h).
Definition fail {A} (e : exn) : M A := fun h => (Raise e, h).
Definition bindM {A B} (m : M A) (f : A -> M B) : M B :=
  fun h => match m h with (Ok x, h') => f x h' | (Raise e, h') => (Raise e, h') end.
Notation "'let!' x ':=' e 'in' f" := (bindM e (fun x => f)) (at level 200, x pattern, right associativity).
Definition lift {A} (r : res A) : M A := fun h => (r, h).
Fixpoint mapMM {A B} (f : A -> M B) (l : list A) : M (list B) :=
  match l with
  | [] => ret []
  | x :: l' => let! y := f x in let! ys := mapMM f l' in ret (y :: ys)
  end.

Definition get_cell (c : nat) : M bu := fun h => (match nth_error (cells h) c with Some x => Ok x | None => Raise Unmodelled end, h).
Definition get_list (l : nat) : M (list nat) := fun h => (match nth_error (lists h) l with Some x => Ok x | None => Raise Unmodelled end, h).
Definition get_unit (u : nat) : M (unit_obj T) := fun h => (match nth_error (uobjs h) u with Some x => Ok x | None => Raise Unmodelled end, h).
Definition get_multi (m : nat) : M mrec := fun h => (match nth_error (mobjs h) m with Some x => Ok x | None => Raise Unmodelled end, h).
Definition set_cell (c : nat) (x : bu) : M unit := fun h => (Ok tt, HP (set_nth c x (cells h)) (lists h) (uobjs h) (mobjs h)).
Definition set_list (l : nat) (cs : list nat) : M unit := fun h => (Ok tt, HP (cells h) (set_nth l cs (lists h)) (uobjs h) (mobjs h)).
Definition set_unit (u : nat) (x : unit_obj T) : M unit := fun h => (Ok tt, HP (cells h) (lists h) (set_nth u x (uobjs h)) (mobjs h)).
Definition set_multi (m : nat) (x : mrec) : M unit := fun h => (Ok tt, HP (cells h) (lists h) (uobjs h) (set_nth m x (mobjs h))).
Definition new_cell (x : bu) : M nat := fun h => (Ok (length (cells h)), HP (cells h ++ [x]) (lists h) (uobjs h) (mobjs h)).
Definition new_list (cs : list nat) : M nat := fun h => (Ok (length (lists h)), HP (cells h) (lists h ++ [cs]) (uobjs h) (mobjs h)).
Definition new_unit (x : unit_obj T) : M hval := fun h => (Ok (HUnit (length (uobjs h))), HP (cells h) (lists h) (uobjs h ++ [x]) (mobjs h)).
Definition new_multi (x : mrec) : M hval := fun h => (Ok (HMulti (length (mobjs h))), HP (cells h) (lists h) (uobjs h) (mobjs h ++ [x])).

Definition read_half (l : nat) : M half := let! cs := get_list l in mapMM get_cell cs.
Definition alloc_half (b : half) : M nat := let! cs := mapMM new_cell b in new_list cs.
(** [copy.deepcopy] of a list of BaseUnits.  It keeps track of objects already
    copied, so an object that occurs twice is copied once: not modelled. *)
Definition deepcopy (l : nat) : M nat :=
  let! cs := get_list l in
  if (Nat.eqb (length (nodup Nat.eq_dec cs)) (length cs)) then let! bs := mapMM get_cell cs in alloc_half bs
  else fail Unmodelled.
(** [xs + ys]. *)
Definition concat (l1 l2 : nat) : M nat :=
  let! c1 := get_list l1 in let! c2 := get_list l2 in new_list (c1 ++ c2).

(** ** The steps of the pipeline *)

(** deconstruct_unit_prefixes, units.py:376-418: reads, and builds new objects. *)
Definition h_prefixes (lt lb : nat) : M (nat * nat * T) :=
  let! t := read_half lt in
  let! b := read_half lb in
  let! r := lift (deconstruct_unit_prefixes t b) in
  let '(t', b', f) := r in
  let! lt' := alloc_half t' in
  let! lb' := alloc_half b' in
  ret (lt', lb', f).

(** combine_units, units.py:465-484, changes the objects of the list. *)
Definition h_combine_step (cs : list nat) (i j : nat) : M unit :=
  match nth_error cs i, nth_error cs j with
  | Some c1, Some c2 =>
      let! u1 := get_cell c1 in
      let! u2 := get_cell c2 in
      if String.eqb (bname u1) (bname u2) && negb (Nat.eqb i j) then
        let! _ := set_cell c1 (BU (bname u1) (eadd (bexp u1) (bexp u2))) in
        let! u2 := get_cell c2 in
        set_cell c2 (BU (bname u2) (eint 0))
      else ret tt
  | _, _ => ret tt
  end.
Fixpoint iterM {A} (f : A -> M unit) (l : list A) : M unit :=
  match l with [] => ret tt | x :: l' => let! _ := f x in iterM f l' end.
Definition h_combine (l : nat) : M nat :=
  let! cs := get_list l in
  let idx := seq 0 (length cs) in
  let! _ := iterM (fun i => iterM (fun j => h_combine_step cs i j) idx) idx in
  ret l.

(** cancel_units, units.py:423-463: the loops change the objects (442-446), then
    two new lists are built of the same objects and of new ones (448-462). *)
Definition h_absorb (c1 c2 : nat) : M unit :=
  let! u1 := get_cell c1 in
  let! u2 := get_cell c2 in
  if String.eqb (bname u1) (bname u2) && negb (e_is (bexp u1) 0) then
    let! _ := set_cell c1 (BU (bname u1) (esub (bexp u1) (bexp u2))) in
    let! u2 := get_cell c2 in
    set_cell c2 (BU (bname u2) (eint 0))
  else ret tt.
Fixpoint h_split (tops : list nat) : M (list nat * list nat) :=
  match tops with
  | [] => ret ([], [])
  | c :: cs =>
      let! u := get_cell c in
      if e_is (bexp u) 0 then h_split cs
      else if eltb (bexp u) (eint 0) then
        let! n := new_cell (BU (bname u) (eopp (bexp u))) in
        let! r := h_split cs in
        ret (fst r, n :: snd r)
      else
        let! r := h_split cs in
        ret (c :: fst r, snd r)
  end.
Fixpoint h_keep (bots : list nat) : M (list nat) :=
  match bots with
  | [] => ret []
  | c :: cs =>
      let! u := get_cell c in
      let! r := h_keep cs in
      ret (if e_is (bexp u) 0 then r else c :: r)
  end.
Definition h_cancel (lt lb : nat) : M (nat * nat) :=
  let! ct := get_list lt in
  let! cb := get_list lb in
  let! _ := iterM (fun c1 => iterM (h_absorb c1) cb) ct in
  let! r := h_split ct in
  let! k := h_keep cb in
  let! lt' := new_list (fst r) in
  let! lb' := new_list (snd r ++ k) in
  ret (lt', lb').

(** The loops of deconstruct_units, units.py:576-607, on the contents of the two
    copied lists. *)
Fixpoint h_expand_loop (fuel : nat) (pre rest other : list nat) (hit : bool) : M (list nat * list nat * bool) :=
  match rest with
  | [] => ret (pre, other, hit)
  | c :: rest' =>
      match fuel with
      | O => fail OutOfFuel
      | S fuel' =>
          let! x := get_cell c in
          match dict_get DECONSTRUCTABLE_UNITS (bname x) with
          | None => h_expand_loop fuel' (pre ++ [c]) rest' other hit
          | Some d =>
              let! p := lift (expand d (bexp x)) in
              let! n1 := mapMM new_cell (fst p) in
              let! n2 := mapMM new_cell (snd p) in
              match rest' ++ n1 with
              | [] => ret (pre, other ++ n2, true)
              | y :: ys => h_expand_loop fuel' (pre ++ [y]) ys (other ++ n2) true
              end
          end
      end
  end.
Definition h_round (ct cb : list nat) : M (list nat * list nat * bool) :=
  let! t := mapMM get_cell ct in
  let! r1 := h_expand_loop (weights t) [] ct cb false in
  let '(ct1, cb1, h1) := r1 in
  let! b1 := mapMM get_cell cb1 in
  let! r2 := h_expand_loop (weights b1) [] cb1 ct1 false in
  let '(cb2, ct2, h2) := r2 in
  ret (ct2, cb2, h1 || h2).
Fixpoint h_dloop (fuel : nat) (one_pass : bool) (ct cb : list nat) : M (list nat * list nat) :=
  match fuel with
  | O => fail OutOfFuel
  | S fuel' =>
      let! r := h_round ct cb in
      let '(t, b, hit) := r in
      if hit && negb one_pass then h_dloop fuel' one_pass t b else ret (t, b)
  end.
(** deconstruct_units, units.py:547-609, works on copies (572-573). *)
Definition h_deconstruct (one_pass : bool) (lt lb : nat) : M (nat * nat) :=
  let! lt := deepcopy lt in
  let! lb := deepcopy lb in
  let! ct := get_list lt in
  let! cb := get_list lb in
  let! t := mapMM get_cell ct in
  let! b := mapMM get_cell cb in
  let! r := h_dloop (S (weights t + weights b)) one_pass ct cb in
  let! _ := set_list lt (fst r) in
  let! _ := set_list lb (snd r) in
  ret (lt, lb).

(** simplify_units, units.py:611-750: lines 735-736 extend the lists given, line
    738 cancels, line 742 appends to the list returned by cancel_units. *)
Fixpoint h_sloop (fuel : nat) (lt lb : nat) : M (nat * nat) :=
  match fuel with
  | O => fail OutOfFuel
  | S fuel' =>
      let! top := read_half lt in
      let! bot := read_half lb in
      let! ms := lift (mapM (match_one top bot) DECONSTRUCTABLE_UNITS) in
      match somes ms with
      | [] => ret (lt, lb)
      | m :: ms' =>
          if Qc_eq_bool (sum_matches (m :: ms')) (qc 0) then ret (lt, lb)
          else
            let '(u, k) := best ms' m in
            match dict_get DECONSTRUCTABLE_UNITS u with
            | None => fail EKeyError
            | Some d =>
                let! p := lift (expand d k) in
                let! n1 := mapMM new_cell (fst p) in
                let! n2 := mapMM new_cell (snd p) in
                let! cb := get_list lb in
                let! _ := set_list lb (cb ++ n1) in
                let! ct := get_list lt in
                let! _ := set_list lt (ct ++ n2) in
                let! r := h_cancel lt lb in
                let! n := new_cell (BU u k) in
                let! ct := get_list (fst r) in
                let! _ := set_list (fst r) (ct ++ [n]) in
                h_sloop fuel' (fst r) (snd r)
            end
      end
  end.
Fixpoint h_common (l : list (string * string)) (lt lb : nat) : M (nat * nat) :=
  match l with
  | [] => ret (lt, lb)
  | (k, v) :: l' =>
      let! p := lift (parse_units k) in
      let! t := read_half lt in
      let! b := read_half lb in
      if half_eqb (fst p) t && half_eqb (snd p) b then
        let! q := lift (parse_units v) in
        let! lt' := alloc_half (fst q) in
        let! lb' := alloc_half (snd q) in
        ret (lt', lb')
      else h_common l' lt lb
  end.
Definition h_simplify (lt lb : nat) : M (nat * nat) :=
  let! t := read_half lt in
  let! b := read_half lb in
  let! r := h_sloop (simplify_fuel t b) lt lb in
  h_common UNIT_SIMPLIFICATIONS (fst r) (snd r).

Definition h_reduce_tail (ct cb : bool) (lt lb : nat) : M (nat * nat) :=
  let! d := h_deconstruct false lt lb in
  let '(lt, lb) := d in
  let! lt := if ct then h_combine lt else ret lt in
  let! lb := if cb then h_combine lb else ret lb in
  let! d := h_cancel lt lb in
  h_simplify (fst d) (snd d).
Definition h_reduce (ct cb : bool) (lt lb : nat) : M (nat * nat * T) :=
  let! p := h_prefixes lt lb in
  let '(lt, lb, f) := p in
  let! r := h_reduce_tail ct cb lt lb in
  ret (fst r, snd r, f).

(** ** Results *)
Definition h_unit (r : res (unit_obj T)) : M hval := let! u := lift r in new_unit u.
Definition h_plain (v : T) (x : bu) (e : expo) : M hval := new_unit (UO UUnit v (bname x) e).
Definition h_shape_div (v : T) (lt lb : nat) : M hval :=
  let! t := read_half lt in
  let! b := read_half lb in
  match t, b with
  | [], [] => ret (HNum v)
  | [x], [] => h_plain v x (bexp x)
  | [], [x] => h_plain v x (eopp (bexp x))
  | _, _ => new_multi (MR MMulti v lt lb)
  end.
Definition h_shape_mul (v : T) (lt lb : nat) : M hval :=
  let! t := read_half lt in
  let! b := read_half lb in
  match t, b with
  | [], [] => ret (HNum v)
  | [x], [] => h_plain v x (bexp x)
  | _, _ => new_multi (MR MMulti v lt lb)
  end.

(** ** Operators of MultiUnit (as in Units.v, with the lists shared or copied) *)
Definition h_multi_mul (m : nat) (o : hval) : M hval :=
  let! a := get_multi m in
  match o with
  | HMulti n =>
      let! b := get_multi n in
      let! t1 := deepcopy (mrt a) in let! t2 := deepcopy (mrt b) in let! lt := concat t1 t2 in
      let! b1 := deepcopy (mrb a) in let! b2 := deepcopy (mrb b) in let! lb := concat b1 b2 in
      let! r := h_reduce true true lt lb in
      let '(lt, lb, f) := r in
      new_multi (MR MMulti (nmul (nmul (mrv a) (mrv b)) f) lt lb)
  | HUnit n =>
      let! u := get_unit n in
      let! t1 := deepcopy (mrt a) in let! t2 := alloc_half [BU (un u) (ue u)] in let! lt := concat t1 t2 in
      let! lb := deepcopy (mrb a) in
      let! r := h_reduce true true lt lb in
      let '(lt, lb, _) := r in
      h_shape_mul (nmul (uv u) (mrv a)) lt lb
  | HNum x => new_multi (MR MMulti (nmul (mrv a) x) (mrt a) (mrb a))
  | HNone | HObj => ret HNone
  end.
Definition h_multi_div (m : nat) (o : hval) : M hval :=
  let! a := get_multi m in
  match o with
  | HMulti n =>
      let! b := get_multi n in
      let! ta := read_half (mrt a) in let! tb := read_half (mrt b) in
      let! ba := read_half (mrb a) in let! bb := read_half (mrb b) in
      if half_eqb ta tb && half_eqb ba bb then let! q := lift (pydiv (mrv a) (mrv b)) in ret (HNum q)
      else
        let! t1 := deepcopy (mrt a) in let! t2 := deepcopy (mrb b) in let! lt := concat t1 t2 in
        let! b1 := deepcopy (mrb a) in let! b2 := deepcopy (mrt b) in let! lb := concat b1 b2 in
        let! r := h_reduce true true lt lb in
        let '(lt, lb, f) := r in
        let! q := lift (pydiv (mrv a) (mrv b)) in
        h_shape_div (nmul q f) lt lb
  | HUnit n =>
      let! u := get_unit n in
      let! lt := deepcopy (mrt a) in
      let! b1 := deepcopy (mrb a) in let! b2 := alloc_half [BU (un u) (ue u)] in let! lb := concat b1 b2 in
      let! r := h_reduce false true lt lb in
      let '(lt, lb, f) := r in
      let! q := lift (pydiv (mrv a) (uv u)) in
      h_shape_div (nmul q f) lt lb
  | HNum x =>
      let! q := lift (pydiv (mrv a) x) in
      new_multi (MR MMulti q (mrt a) (mrb a))
  | HNone | HObj => ret HNone
  end.
Definition h_multi_rdiv (m : nat) (o : hval) : M hval :=
  let! a := get_multi m in
  match o with
  | HNum x =>
      let! q := lift (pydiv x (mrv a)) in
      new_multi (MR MMulti q (mrb a) (mrt a))
  | HUnit n =>
      let! u := get_unit n in
      let! lt := deepcopy (mrt a) in
      let! lb := deepcopy (mrb a) in
      let! c := new_cell (BU (un u) (ue u)) in
      let! cb := get_list lb in
      let! _ := set_list lb (cb ++ [c]) in
      let! r := h_reduce true false lb lt in
      let '(lt, lb, _) := r in
      let! q := lift (pydiv (uv u) (mrv a)) in
      h_shape_div q lt lb
  | _ => fail ETypeError
  end.
Definition h_multi_rmul (m : nat) (o : hval) : M hval :=
  let! a := get_multi m in
  match o with
  | HNum x => new_multi (MR MMulti (nmul x (mrv a)) (mrt a) (mrb a))
  | HUnit n =>
      let! u := get_unit n in
      let! t1 := deepcopy (mrt a) in let! t2 := alloc_half [BU (un u) (ue u)] in let! lt := concat t1 t2 in
      let! lb := deepcopy (mrb a) in
      let! r := h_reduce true true lt lb in
      let '(lt, lb, _) := r in
      h_shape_mul (nmul (uv u) (mrv a)) lt lb
  | _ => fail ETypeError
  end.
(** Units.py:1169-1186: lines 1173-1176 change the objects of the copies. *)
Definition h_scale (k : expo) (l : nat) : M unit :=
  let! cs := get_list l in
  iterM (fun c => let! u := get_cell c in set_cell c (BU (bname u) (emul (bexp u) k))) cs.
Definition h_multi_pow (m : nat) (k : expo) : M hval :=
  let! a := get_multi m in
  let! lt := deepcopy (mrt a) in
  let! lb := deepcopy (mrb a) in
  let! _ := h_scale k lt in
  let! _ := h_scale k lb in
  let! r := h_reduce_tail true true lt lb in
  let! v := lift (npow (mrv a) (ev k)) in
  new_multi (MR MMulti v (fst r) (snd r)).
Definition h_same_units (a b : mrec) : M bool :=
  let! ta := read_half (mrt a) in let! tb := read_half (mrt b) in
  let! ba := read_half (mrb a) in let! bb := read_half (mrb b) in
  ret (half_eqb ta tb && half_eqb ba bb).
Definition h_multi_add (m : nat) (o : hval) : M hval :=
  let! a := get_multi m in
  match o with
  | HMulti n =>
      let! b := get_multi n in
      if mcls_eqb (mrc a) (mrc b) then
        let! s := h_same_units a b in
        if s then new_multi (MR MMulti (nadd (mrv a) (mrv b)) (mrt a) (mrb a)) else fail ETypeError
      else fail ETypeError
  | _ => fail ETypeError
  end.
Definition h_multi_sub (m : nat) (o : hval) : M hval :=
  let! a := get_multi m in
  match o with
  | HMulti n =>
      let! b := get_multi n in
      let! s := h_same_units a b in
      if s then new_multi (MR MMulti (nsub (mrv a) (mrv b)) (mrt a) (mrb a)) else fail ETypeError
  | _ => fail ETypeError
  end.
Definition h_multi_neg (m : nat) : M hval :=
  let! a := get_multi m in new_multi (MR (mrc a) (nopp (mrv a)) (mrt a) (mrb a)).

(** ** Operators of Unit *)
Definition h_unit_addsub (op : T -> T -> T) (n : nat) (o : hval) : M hval :=
  let! a := get_unit n in
  match o with
  | HUnit k =>
      let! b := get_unit k in
      if ucls_sub (uc b) (uc a) then
        if String.eqb (un a) (un b) && eeqb (ue a) (ue b)
        then h_unit (mk_unit (uc a) (op (uv a) (uv b)) (un a) (ue a))
        else fail ETypeError
      else fail ETypeError
  | HNum x => h_unit (mk_unit (uc a) (op (uv a) x) (un a) (eint 1))
  | _ => fail ETypeError
  end.
Definition h_unit_mul (n : nat) (o : hval) : M hval :=
  let! a := get_unit n in
  match o with
  | HUnit k =>
      let! b := get_unit k in
      if ucls_eqb (uc a) (uc b) && String.eqb (un a) (un b) then
        h_unit (mk_unit (uc a) (nmul (uv a) (uv b)) (un a) (eadd (ue a) (ue b)))
      else
        let! lt := alloc_half [BU (un a) (eint 1); BU (un b) (eint 1)] in
        let! lb := alloc_half [] in
        new_multi (MR MMulti (nmul (uv a) (uv b)) lt lb)
  | HMulti m => h_multi_mul m (HUnit n)
  | HNum x => h_unit (mk_unit (uc a) (nmul (uv a) x) (un a) (eint 1))
  | _ => fail ETypeError
  end.
Definition h_unit_rmul (n : nat) (o : hval) : M hval :=
  let! a := get_unit n in
  match o with
  | HNum x => h_unit (mk_unit (uc a) (nmul (uv a) x) (un a) (eint 1))
  | _ => fail ETypeError
  end.
Definition h_unit_div (n : nat) (o : hval) : M hval :=
  let! a := get_unit n in
  match o with
  | HUnit k =>
      let! b := get_unit k in
      let! q := lift (pydiv (uv a) (uv b)) in
      if String.eqb (un a) (un b) then
        let r := esub (ue a) (ue b) in
        if e_is r 0 then ret (HNum q) else h_unit (mk_unit (uc a) q (un a) r)
      else
        let! lt := alloc_half [BU (un a) (ue a)] in
        let! lb := alloc_half [BU (un b) (ue b)] in
        new_multi (MR MMulti q lt lb)
  | HNum x =>
      let! q := lift (pydiv (uv a) x) in
      h_unit (mk_unit (uc a) q (un a) (ue a))
  | HMulti m => h_multi_rdiv m (HUnit n)
  | _ => fail ETypeError
  end.
Definition h_unit_pow (n : nat) (k : expo) : M hval :=
  let! a := get_unit n in
  let! v := lift (npow (uv a) (ev k)) in
  h_unit (mk_unit (uc a) v (un a) (emul (ue a) k)).
Definition h_unit_neg (n : nat) : M hval :=
  let! a := get_unit n in h_unit (mk_unit (uc a) (nopp (uv a)) (un a) (ue a)).

(** ** Dispatch *)
Definition h_mul (a b : hval) : M hval :=
  match a, b with
  | HUnit u, _ => h_unit_mul u b
  | HMulti m, _ => h_multi_mul m b
  | HNum x, HNum y => ret (HNum (nmul x y))
  | _, HUnit u => h_unit_rmul u a
  | _, HMulti m => h_multi_rmul m a
  | _, _ => fail ETypeError
  end.
Definition h_div (a b : hval) : M hval :=
  match a, b with
  | HUnit u, _ => h_unit_div u b
  | HMulti m, _ => h_multi_div m b
  | HNum x, HNum y => let! q := lift (pydiv x y) in ret (HNum q)
  | _, HMulti m => h_multi_rdiv m a
  | _, _ => fail ETypeError
  end.
Definition h_add (a b : hval) : M hval :=
  match a, b with
  | HUnit u, _ => h_unit_addsub nadd u b
  | HMulti m, _ => h_multi_add m b
  | HNum x, HNum y => ret (HNum (nadd x y))
  | _, _ => fail ETypeError
  end.
Definition h_sub (a b : hval) : M hval :=
  match a, b with
  | HUnit u, _ => h_unit_addsub nsub u b
  | HMulti m, _ => h_multi_sub m b
  | HNum x, HNum y => ret (HNum (nsub x y))
  | _, _ => fail ETypeError
  end.
Definition h_pow (a : hval) (k : expo) : M hval :=
  match a with
  | HNum x => let! v := lift (npow x (ev k)) in ret (HNum v)
  | HUnit u => h_unit_pow u k
  | HMulti m => h_multi_pow m k
  | _ => fail ETypeError
  end.
Definition h_neg (a : hval) : M hval :=
  match a with
  | HNum x => ret (HNum (nopp x))
  | HUnit u => h_unit_neg u
  | HMulti m => h_multi_neg m
  | _ => fail ETypeError
  end.

(** ** Construction

    MultiUnit.__init__, units.py:366-373.  The default values of top_half and
    bottom_half are two lists made once, when the class is defined: lists 0 and 1. *)
Definition initial : heap := HP [] [[]; []] [] [].
Definition construct (c : mcls) (v : T) (s : string) (top bottom : option nat) : M hval :=
  if String.eqb s "" then
    new_multi (MR c v (match top with Some l => l | None => 0%nat end) (match bottom with Some l => l | None => 1%nat end))
  else
    let! p := lift (parse_units s) in
    let! lt := alloc_half (fst p) in
    let! lb := alloc_half (snd p) in
    new_multi (MR c v lt lb).

(** What the references of a heap stand for. *)
Definition den_half (h : heap) (l : nat) : half := map (fun c => nth c (cells h) (BU "" (eint 0))) (nth l (lists h) []).
Definition den_multi (h : heap) (r : mrec) : multi_obj T := MO (mrc r) (mrv r) (den_half h (mrt r)) (den_half h (mrb r)).

(** [x.convert_to(unit, inplace)], units.py:253-300 and 835-922.  With
    inplace=True the object is initialised again (a MultiUnit with new lists) and
    the result is None.  A Unit that already has the target unit is returned
    itself (line 275). *)
Definition h_multi_convert (tb : tables T) (m : nat) (target : string) (inplace : bool) : M hval :=
  let! a := get_multi m in
  fun h =>
    match multi_convert_to tb (den_multi h a) target with
    | Raise e => (Raise e, h)
    | Ok r =>
        (let! lt := alloc_half (mtop r) in
         let! lb := alloc_half (mbot r) in
         if inplace then let! _ := set_multi m (MR (mc r) (mv r) lt lb) in ret HNone
         else new_multi (MR (mc r) (mv r) lt lb)) h
    end.
Definition same_target (u : unit_obj T) (target : string) : bool :=
  if mem_str (un u) UNIT_COMPOSITES then String.eqb (un u) target
  else match split_on "^" target with r :: _ => String.eqb (un u) r | [] => false end.
Definition h_unit_convert (tb : tables T) (n : nat) (target : string) (inplace : bool) : M hval :=
  let! a := get_unit n in
  let! r := lift (unit_convert_to tb a target) in
  if same_target a target then ret (HUnit n)
  else if inplace then let! _ := set_unit n r in ret HNone
  else new_unit r.
(** Python-level changes of a list by its owner: [x._top_half.append(...)] and the
    documented call [x.combine_units(x._top_half)]. *)
Definition append_top (m : nat) (x : bu) : M unit :=
  let! a := get_multi m in
  let! c := new_cell x in
  let! cs := get_list (mrt a) in
  set_list (mrt a) (cs ++ [c]).
Definition combine_top (m : nat) : M unit :=
  let! a := get_multi m in
  let! _ := h_combine (mrt a) in ret tt.
End Heap.
