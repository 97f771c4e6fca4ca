(** * UnitsStruct: the list algorithms behind MultiUnit

    A [BaseUnit] (units.py:303-333) is a name and an exponent.  The functions
    mutate lists of BaseUnits in Python; here they return the new lists. *)
From Coq Require Import String Ascii List ZArith QArith Qcanon Qround Bool.
From Verif Require Import Py Num UnitsData.
Import ListNotations.
Local Open Scope string_scope.
Local Open Scope list_scope.

Record bu := BU { bname : string; bexp : expo }.
Definition half := list bu.

(** BaseUnit.__eq__, units.py:320-323. *)
Definition bu_eqb (a b : bu) : bool :=
  String.eqb (bname a) (bname b) && eeqb (bexp a) (bexp b).

(** List equality [==] of lists of BaseUnits (used on lines 343, 970, 978, 989, 1478). *)
Fixpoint half_eqb (a b : half) : bool :=
  match a, b with
  | nil, nil => true
  | x :: a', y :: b' => bu_eqb x y && half_eqb a' b'
  | _, _ => false
  end.

(** Membership of BaseUnits in a set: hash(str(self)) (units.py:315-325) must
    agree, then __eq__.  The text of a BaseUnit contains its exponent only when
    that is not 1, and then shows int and float exponents differently.
    Simplification: no collisions between hashes of different texts. *)
Definition bu_seteq (a b : bu) : bool :=
  bu_eqb a b && (e_is (bexp a) 1 || Bool.eqb (isf (bexp a)) (isf (bexp b))).
Definition set_sub (a b : half) : bool :=
  forallb (fun x => existsb (bu_seteq x) b) a.
Definition set_eqb (a b : half) : bool := set_sub a b && set_sub b a.

(** ** Prefixes *)

(** get_prefix, _utility.py:26-48.  [unit[0]] of the empty string is an
    IndexError ([len(unit) == 1] is tested first). *)
Definition get_prefix (u : string) : res (string * string) :=
  match u with
  | EmptyString => Raise EIndexError
  | String c rest =>
      if String.eqb rest EmptyString
         || negb (mem_str (String c EmptyString) ["m"; "c"; "d"; "k"; "M"])
         || mem_str u ["min"; "cP"; "mol"]
      then Ok (EmptyString, u)
      else Ok (String c EmptyString, rest)
  end.

(** One element of the four comprehensions on units.py:390-393. *)
Definition split_prefix (x : bu) : res (string * bu) :=
  if String.eqb (bname x) "kg" then Ok (EmptyString, BU "kg" (bexp x))
  else let* pr := get_prefix (bname x) in Ok (fst pr, BU (snd pr) (bexp x)).

(** The loops on units.py:397-403 and 405-412: the factor contributed by the
    prefixes of one half; [inv] for the bottom half.  The bare [except] turns
    every failure into UnknownPrefix. *)
Fixpoint prefix_loop {T} `{Num T} (inv : bool) (l : list (string * bu)) (factor : T) : res T :=
  match l with
  | nil => Ok factor
  | (pfx, x) :: l' =>
      if String.eqb pfx EmptyString then prefix_loop inv l' factor
      else
        match dict_get prefix_factors pfx with
        | None => Raise EUnknownPrefix
        | Some q =>
            let base := if inv then pydiv (nq 1) (nq q) else Ok (nq q) in
            match (let* b := base in npow b (ev (bexp x))) with
            | Ok f => prefix_loop inv l' (nmul factor f)
            | Raise Unmodelled => Raise Unmodelled
            | Raise _ => Raise EUnknownPrefix
            end
        end
  end.

(** deconstruct_unit_prefixes, units.py:377-414. *)
Definition deconstruct_unit_prefixes {T} `{Num T} (top bot : half) : res (half * half * T) :=
  let* tp := mapM split_prefix top in
  let* bp := mapM split_prefix bot in
  let* f := prefix_loop false tp (nq 1) in
  let* f := prefix_loop true bp f in
  Ok (map snd tp, map snd bp, f).

(** ** Cancelling *)

(** The inner loop of cancel_units, units.py:443-446. *)
Fixpoint absorb (u1 : bu) (bots : half) : bu * half :=
  match bots with
  | nil => (u1, nil)
  | u2 :: bs =>
      if String.eqb (bname u1) (bname u2) && negb (e_is (bexp u1) 0) then
        let '(u1', bs') := absorb (BU (bname u1) (esub (bexp u1) (bexp u2))) bs in
        (u1', BU (bname u2) (eint 0) :: bs')
      else
        let '(u1', bs') := absorb u1 bs in (u1', u2 :: bs')
  end.

(** The outer loop, units.py:442-446. *)
Fixpoint cancel_loop (tops bots : half) : half * half :=
  match tops with
  | nil => (nil, bots)
  | u1 :: ts =>
      let '(u1', bots1) := absorb u1 bots in
      let '(ts', bots2) := cancel_loop ts bots1 in
      (u1' :: ts', bots2)
  end.

(** cancel_units, units.py:423-463; lines 450-456 split the top half, lines
    460-462 keep the nonzero bottom units. *)
Definition cancel_units (top bot : half) : half * half :=
  let '(t, b) := cancel_loop top bot in
  (filter (fun u => eltb (eint 0) (bexp u)) t,
   map (fun u => BU (bname u) (eopp (bexp u))) (filter (fun u => eltb (bexp u) (eint 0)) t)
     ++ filter (fun u => negb (e_is (bexp u) 0)) b).

(** ** Combining *)

Fixpoint set_nth {A} (n : nat) (x : A) (l : list A) : list A :=
  match l, n with
  | nil, _ => nil
  | _ :: l', O => x :: l'
  | y :: l', S n' => y :: set_nth n' x l'
  end.

(** One step of the double loop of combine_units, units.py:481-483. *)
Definition combine_step (i j : nat) (l : half) : half :=
  match nth_error l i, nth_error l j with
  | Some u1, Some u2 =>
      if String.eqb (bname u1) (bname u2) && negb (Nat.eqb i j) then
        set_nth j (BU (bname u2) (eint 0))
          (set_nth i (BU (bname u1) (eadd (bexp u1) (bexp u2))) l)
      else l
  | _, _ => l
  end.

(** combine_units, units.py:465-484. *)
Definition combine_units (l : half) : half :=
  let idx := seq 0 (List.length l) in
  fold_left (fun l i => fold_left (fun l j => combine_step i j l) idx l) idx l.

(** ** Parsing *)

(** One factor of a half, units.py:511-517 and 533-539.  A factor with two or
    more ^ makes the tuple unpacking of [split] raise ValueError. *)
Definition parse_factor (s : string) : res bu :=
  if has_char "^" s then
    match split_on "^" s with
    | [u; e] => let* q := py_float e in Ok (BU u (eflt q))
    | _ => Raise EValueError
    end
  else Ok (BU s (eflt (qc 1))).

Definition parse_half (s : string) : res half :=
  mapM parse_factor (split_on "*" (strip s)).

(** parse_units, units.py:487-542.  The [try] on line 504 covers the split at /
    and the parsing of the bottom half: a ValueError there makes the whole
    string the top half. *)
Definition parse_units (s : string) : res (half * half) :=
  let '(tops, bot) :=
    match split_on "/" s with
    | [t; b] =>
        match parse_half b with
        | Ok bs => (Ok t, bs)
        | Raise EValueError => (Ok s, nil)
        | Raise e => (Raise e, nil)
        end
    | _ => (Ok s, nil)
    end in
  let* t := tops in
  let* top := parse_half t in
  Ok (top, bot).

(** ** Expanding derived units *)

(** The expansion of one derived unit, units.py:580-584 and 595-600: parse the
    definition and raise every BaseUnit to the exponent (BaseUnit.__pow__,
    units.py:328-333). *)
Definition expand (d : string) (e : expo) : res (half * half) :=
  let* p := parse_units d in
  let f := map (fun x => BU (bname x) (emul (bexp x) e)) in
  Ok (f (fst p), f (snd p)).

(** The loop [for i, unit in enumerate(xs)] on units.py:578-591 (and, with the
    halves exchanged, 593-607).  [pre] is the part of [xs] before index i, [rest]
    the part from i on.  Deleting the element at i moves its successor to
    position i; the iterator then goes to i+1, so the successor (the next old
    element, or else the first appended one) is not examined.
    Returns the two lists and whether a unit was expanded. *)
Fixpoint expand_loop (fuel : nat) (pre rest other : half) (hit : bool)
  : res (half * half * bool) :=
  match rest with
  | nil => Ok (pre, other, hit)
  | x :: rest' =>
      match fuel with
      | O => Raise OutOfFuel
      | S fuel' =>
          match dict_get DECONSTRUCTABLE_UNITS (bname x) with
          | None => expand_loop fuel' (pre ++ [x]) rest' other hit
          | Some d =>
              let* p := expand d (bexp x) in
              match rest' ++ fst p with
              | nil => Ok (pre, other ++ snd p, true)
              | y :: ys => expand_loop fuel' (pre ++ [y]) ys (other ++ snd p) true
              end
          end
      end
  end.

(** Fuel: an upper bound for the number of iterations of one [for] loop; derived
    units weigh more since their expansion is appended to the list. *)
Definition weight (n : string) : nat :=
  if String.eqb n "W" then 4
  else if mem_str n ["J"; "C"; "V"] then 3
  else if mem_str n ["Pa"; "psi"; "cP"] then 2
  else 1.
Definition weights (l : half) : nat := list_sum (map (fun x => weight (bname x)) l).

(** One round of the [while] loop, units.py:578-607. *)
Definition deconstruct_round (top bot : half) : res (half * half * bool) :=
  let* r1 := expand_loop (weights top) nil top bot false in
  let '(top1, bot1, h1) := r1 in
  let* r2 := expand_loop (weights bot1) nil bot1 top1 false in
  let '(bot2, top2, h2) := r2 in
  Ok (top2, bot2, h1 || h2).

(** The [while] loop, units.py:576-607. *)
Fixpoint deconstruct_loop (fuel : nat) (one_pass : bool) (top bot : half) : res (half * half) :=
  match fuel with
  | O => Raise OutOfFuel
  | S fuel' =>
      let* r := deconstruct_round top bot in
      let '(t, b, hit) := r in
      if hit && negb one_pass then deconstruct_loop fuel' one_pass t b
      else Ok (t, b)
  end.

(** deconstruct_units, units.py:547-609. *)
Definition deconstruct_units (one_pass : bool) (top bot : half) : res (half * half) :=
  deconstruct_loop (S (weights top + weights bot)) one_pass top bot.

(** ** Simplifying *)

(** [set(standard_base).issubset(set(standard_units))] with all exponents set to
    1, units.py:643-661: inclusion of names. *)
Definition names_sub (a b : half) : bool :=
  forallb (fun x => existsb (fun y => String.eqb (bname x) (bname y)) b) a.

(** Exponent check, units.py:666-677 and 679-690: no unit of the list with a name
    of the definition may have a smaller exponent. *)
Definition exps_ok (defn l : half) : bool :=
  forallb (fun u1 => forallb (fun u2 =>
     negb (String.eqb (bname u1) (bname u2) && eltb (bexp u2) (bexp u1))) l) defn.

(** Number of matches, units.py:694-706. *)
Definition count_matches (defn l : half) (n : expo) : expo :=
  fold_left (fun n u1 => fold_left (fun n u2 =>
     if String.eqb (bname u1) (bname u2) then
       let m := ediv (bexp u2) (bexp u1) in if eltb m n then m else n
     else n) l n) defn n.

(** The body of the [for] loop over the definitions, units.py:640-710: the entry
    (unit, num_matches) added to matches_dict, if any. *)
Definition match_one (top bot : half) (kd : string * string) : res (option (string * expo)) :=
  let* p := parse_units (snd kd) in
  let '(dt, db) := p in
  if names_sub dt top && names_sub db bot && exps_ok dt top && exps_ok db bot then
    Ok (Some (fst kd, count_matches db bot (count_matches dt top (eint 100))))
  else Ok None.

Fixpoint somes {A} (l : list (option A)) : list A :=
  match l with
  | nil => nil
  | Some x :: l' => x :: somes l'
  | None :: l' => somes l'
  end.

(** [max(d, key=d.get)]: the first entry with the largest value, units.py:720. *)
Fixpoint best (l : list (string * expo)) (cur : string * expo) : string * expo :=
  match l with
  | nil => cur
  | x :: l' => best l' (if eltb (snd cur) (snd x) then x else cur)
  end.

Definition sum_matches (l : list (string * expo)) : Qc :=
  fold_right (fun x a => (ev (snd x) + a)%Qc) (qc 0) l.

(** One round of the [while] loop, units.py:638-745; None when no match is left
    (line 714). *)
Definition simplify_round (top bot : half) : res (option (half * half)) :=
  let* ms := mapM (match_one top bot) DECONSTRUCTABLE_UNITS in
  match somes ms with
  | nil => Ok None
  | m :: ms' =>
      if Qc_eq_bool (sum_matches (m :: ms')) (qc 0) then Ok None
      else
        let '(u, k) := best ms' m in
        match dict_get DECONSTRUCTABLE_UNITS u with
        | None => Raise EKeyError
        | Some d =>
            let* p := expand d k in
            let '(t, b) := cancel_units (top ++ snd p) (bot ++ fst p) in
            Ok (Some (t ++ [BU u k], b))
        end
  end.

Fixpoint simplify_loop (fuel : nat) (top bot : half) : res (half * half) :=
  match fuel with
  | O => Raise OutOfFuel
  | S fuel' =>
      let* r := simplify_round top bot in
      match r with
      | None => Ok (top, bot)
      | Some (t, b) => simplify_loop fuel' t b
      end
  end.

(** do_common_simplifications, units.py:339-347. *)
Fixpoint common_simpl (l : list (string * string)) (top bot : half) : res (half * half) :=
  match l with
  | nil => Ok (top, bot)
  | (k, v) :: l' =>
      let* p := parse_units k in
      if half_eqb (fst p) top && half_eqb (snd p) bot then parse_units v
      else common_simpl l' top bot
  end.
Definition do_common_simplifications := common_simpl UNIT_SIMPLIFICATIONS.

Definition Qcabs (q : Qc) : Qc := if Qcltb q (qc 0) then (- q)%Qc else q.
(** Fuel for the [while] loop: one more than twice the sum of absolute exponents
    (every round lowers a weighted sum of exponents by at least 1). *)
Definition abs_total (l : half) : Qc :=
  fold_right (fun x a => (Qcabs (ev (bexp x)) + a)%Qc) (qc 0) l.
Definition simplify_fuel (top bot : half) : nat :=
  let s := (abs_total top + abs_total bot)%Qc in
  S (Z.to_nat (Qceiling (this (s + s)%Qc))).

(** simplify_units, units.py:611-750. *)
Definition simplify_units (top bot : half) : res (half * half) :=
  let* r := simplify_loop (simplify_fuel top bot) top bot in
  do_common_simplifications (fst r) (snd r).

(** ** Display *)

(** remove_zero, _utility.py:10-23: int(x) as soon as the text contains ".0". *)
Definition remove_zero (e : expo) : res expo :=
  let* s := str_expo e in
  if str_in ".0" s then Ok (eint (trunc (ev e))) else Ok e.

(** to_sup, _utility.py:52-64 (UTF-8 bytes of the superscript digits). *)
Definition bytes (l : list nat) : string :=
  fold_right (fun n s => String (ascii_of_nat n) s) EmptyString l.
Definition sup_char (c : ascii) : string :=
  if Ascii.eqb c "0" then bytes [226;129;176]%nat
  else if Ascii.eqb c "1" then bytes [194;185]%nat
  else if Ascii.eqb c "2" then bytes [194;178]%nat
  else if Ascii.eqb c "3" then bytes [194;179]%nat
  else if Ascii.eqb c "4" then bytes [226;129;180]%nat
  else if Ascii.eqb c "5" then bytes [226;129;181]%nat
  else if Ascii.eqb c "6" then bytes [226;129;182]%nat
  else if Ascii.eqb c "7" then bytes [226;129;183]%nat
  else if Ascii.eqb c "8" then bytes [226;129;184]%nat
  else if Ascii.eqb c "9" then bytes [226;129;185]%nat
  else String c EmptyString.
Fixpoint to_sup (s : string) : string :=
  match s with EmptyString => EmptyString | String c s' => sup_char c +++ to_sup s' end.

(** f"{unit}{to_sup(str(remove_zero(e)))}" *)
Definition show_sup (n : string) (e : expo) : res string :=
  let* z := remove_zero e in let* s := str_expo z in Ok (n +++ to_sup s).

Definition show_bu (x : bu) : res string :=
  if e_is (bexp x) 1 then Ok (bname x) else show_sup (bname x) (bexp x).

(** The loop over the bottom half, units.py:931-950; [to_sup] never raises, so
    the KeyError handlers are dead code. *)
Fixpoint show_bottom (l : half) (top : string) (acc : list string) : res (string * list string) :=
  match l with
  | nil => Ok (top, acc)
  | x :: l' =>
      if e_is (bexp x) 1 then show_bottom l' top (acc ++ [bname x])
      else if eltb (bexp x) (eint 0) then
        let* s := show_sup (bname x) (eopp (bexp x)) in
        show_bottom l' (if String.eqb top EmptyString then s else top +++ " * " +++ s) acc
      else
        let* s := show_sup (bname x) (bexp x) in
        show_bottom l' top (acc ++ [s])
  end.

(** get_unit_string, units.py:924-954. *)
Definition get_unit_string (top bot : half) : res string :=
  let* ts := mapM show_bu top in
  let t := join " * " ts in
  match bot with
  | nil => Ok t
  | _ =>
      let* r := show_bottom bot t nil in
      Ok (fst r +++ " / " +++ join " * " (snd r))
  end.
