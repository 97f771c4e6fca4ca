(** * Balance: balancing of chemical equations

    cheme_calculations/reactions/balance.py.  numpy.linalg.lstsq (line 181) is a
    parameter, so is the order in which list(set(...)) enumerates the elements
    (lines 158, 159).  The float values returned by lstsq are rationals.  The float
    divisions of lines 52 and 202 are rounded ([fl_pos], [fl] of FloatExp).  Strings
    are ASCII. *)
From Coq Require Import String Ascii List ZArith QArith Qcanon Qabs Bool.
From Verif Require Import Py FloatExp.
Import ListNotations.
Local Open Scope string_scope.
Local Open Scope list_scope.

Definition in_range (a : ascii) (lo hi : nat) : bool := Nat.leb lo (nat_of_ascii a) && Nat.leb (nat_of_ascii a) hi.
Definition is_upper (a : ascii) : bool := in_range a 65 90.
Definition is_lower (a : ascii) : bool := in_range a 97 122.

(** Line 30, [re.findall(r"[A-Z][a-z]?\d+|[A-Z][a-z]?", s)]: every match as its
    letters and its digits.  [cur] is the match being read: one or two letters
    and the digits so far; the second letter must come before the first digit. *)
Definition close_match (cur : option (string * string)) : list (string * string) :=
  match cur with Some t => [t] | None => [] end.
Fixpoint find_elements (cur : option (string * string)) (s : string) : list (string * string) :=
  match s with
  | EmptyString => close_match cur
  | String c s' =>
      let extend :=
        match cur with
        | Some (l, d) =>
            if is_digit c then Some (l, d +++ String c "")
            else if is_lower c && String.eqb d "" && Nat.eqb (String.length l) 1 then Some (l +++ String c "", "")
            else None
        | None => None
        end in
      match extend with
      | Some t => find_elements (Some t) s'
      | None => close_match cur ++ find_elements (if is_upper c then Some (String c "", "") else None) s'
      end
  end.

(** [int(s)] of a string of digits. *)
Definition int_of_digits (s : string) : Z := fst (fst (take_digits 0 0 s)).

(** A defaultdict of counts, in insertion order; [d[k] += n]. *)
Notation counts := (list (string * Z)).
Fixpoint add_count (d : counts) (k : string) (n : Z) : counts :=
  match d with
  | [] => [(k, n)]
  | (k', m) :: d' => if String.eqb k' k then (k', (m + n)%Z) :: d' else (k', m) :: add_count d' k n
  end.

(** Lines 29-39, _get_chemical_dict. *)
Definition get_chemical_dict (d : counts) (group : string) (multiplier : Z) : counts :=
  fold_left (fun d e =>
    let '(ele, digits) := e in
    if String.eqb digits "" then add_count d ele (1 * multiplier)
    else add_count d ele (int_of_digits digits * multiplier)) (find_elements None group) d.

(** [s] around the first (last) occurrence of [c]. *)
Fixpoint cut_first (c : ascii) (s : string) : option (string * string) :=
  match s with
  | EmptyString => None
  | String a s' =>
      if Ascii.eqb a c then Some ("", s')
      else match cut_first c s' with Some (x, y) => Some (String a x, y) | None => None end
  end.
Fixpoint cut_last (c : ascii) (s : string) : option (string * string) :=
  match s with
  | EmptyString => None
  | String a s' =>
      match cut_last c s' with
      | Some (x, y) => Some (String a x, y)
      | None => if Ascii.eqb a c then Some ("", s') else None
      end
  end.
(** Line 60, [re.findall(r"\(.+\)", s)]: at most one match, from the first opening
    parenthesis to the last closing one, with something between; [(before,
    between, after)].  The dot does not match a newline: not modelled. *)
Definition paren_group (s : string) : option (string * string * string) :=
  match cut_first "(" s with
  | None => None
  | Some (x, r) =>
      match cut_last ")" r with
      | None => None
      | Some (i, y) => if String.eqb i "" then None else Some (x, i, y)
      end
  end.
(** Characters with a meaning in a regular expression, parentheses aside
    (those are escaped on lines 66 and 67). *)
Definition regex_special (a : ascii) : bool :=
  has_char a ".^$*+?{}[]|" || Ascii.eqb a "092".
Fixpoint any_char (f : ascii -> bool) (s : string) : bool :=
  match s with EmptyString => false | String a s' => f a || any_char f s' end.
Fixpoint drop_digits (s : string) : string :=
  match s with
  | EmptyString => EmptyString
  | String a s' => if is_digit a then drop_digits s' else s
  end.
(** Line 74, [int(molecule[idx+1])]. *)
Definition int_of_next (s : string) : res Z :=
  match s with
  | EmptyString => Raise EIndexError
  | String a _ => if is_digit a then Ok (digit_val a) else Raise EValueError
  end.

(** Lines 58-92, the body of the loop of _parse_equation_side. *)
Definition parse_molecule (molecule : string) : res counts :=
  if has_char "010" molecule then Raise Unmodelled
  else
  match paren_group molecule with
  | Some (before, inside, after) =>
      match cut_first ")" molecule with
      | None => Raise EValueError
      | Some (_, rest) =>
          let* multiplier := int_of_next rest in
          let d := get_chemical_dict [] ("(" +++ inside +++ ")") multiplier in
          if any_char regex_special inside then Raise Unmodelled
          else
            let molecule := if starts_digit after then before +++ drop_digits after else molecule in
            Ok (get_chemical_dict d molecule 1)
      end
  | None => Ok (get_chemical_dict [] molecule 1)
  end.
Definition parse_equation_side (side : list string) : res (list counts) := mapM parse_molecule side.

(** ** Fractions *)

(** Fraction.limit_denominator of the standard library (max_denominator = 10^6);
    the state is p0, q0, p1, q1, n, d. *)
Record ld := LD { p0 : Z; q0 : Z; p1 : Z; q1 : Z; ln_ : Z; ld_ : Z }.
Definition max_den : Z := 1000000.
(** One round: [true] means break. *)
Definition ld_step (s : ld) : bool * ld :=
  let a := (ln_ s / ld_ s)%Z in
  let q2 := (q0 s + a * q1 s)%Z in
  if (max_den <? q2)%Z then (true, s)
  else (false, LD (p1 s) (q1 s) (p0 s + a * p1 s) q2 (ld_ s) (ln_ s - a * ld_ s)).
(** At most [fuel] rounds; more are never needed (BalanceFacts). *)
Fixpoint ld_loop (fuel : positive) (s : ld) : bool * ld :=
  match fuel with
  | xH => ld_step s
  | xO f => let r := ld_loop f s in if fst r then r else ld_loop f (snd r)
  | xI f => let r := ld_step s in if fst r then r else
            let r := ld_loop f (snd r) in if fst r then r else ld_loop f (snd r)
  end.
Definition limit_denominator (x : Q) : Q :=
  let x := Qred x in
  if (Zpos (Qden x) <=? max_den)%Z then x
  else
    let s := snd (ld_loop (Qden x) (LD 0 1 1 0 (Qnum x) (Zpos (Qden x)))) in
    let k := ((max_den - q0 s) / q1 s)%Z in
    let bound1 := Qred ((p0 s + k * p1 s) # Z.to_pos (q0 s + k * q1 s)) in
    let bound2 := Qred (p1 s # Z.to_pos (q1 s)) in
    if Qle_bool (Qabs (bound2 - x)) (Qabs (bound1 - x)) then bound2 else bound1.

(** [math.gcd] and [math.lcm] of several integers. *)
Definition gcd_list (l : list Z) : Z := fold_right Z.gcd 0%Z l.
Definition lcm_list (l : list Z) : Z := fold_right Z.lcm 1%Z l.
(** Lines 43-52, _get_fraction_lcm.  A quotient too large for a float is an
    OverflowError, which is not modelled. *)
Definition get_fraction_lcm (l : list Q) : res Q :=
  let numerator := gcd_list (map Qnum l) in
  let denominator := lcm_list (map (fun x => Zpos (Qden x)) l) in
  if (numerator =? 0)%Z then Raise EZeroDivisionError
  else if ((2 ^ 54 - 1) * 2 ^ 970 * numerator <=? denominator)%Z then Raise Unmodelled
  else Ok (limit_denominator (fl_pos denominator numerator)).
(** [int(x)] of a Fraction. *)
Definition int_of_frac (x : Q) : Z := Z.quot (Qnum x) (Zpos (Qden x)).

(** ** balance_equation *)

(** [equation.split("->")]. *)
Fixpoint split_arrow (s : string) : list string :=
  match s with
  | EmptyString => [""]
  | String a s' =>
      match s' with
      | String b s'' =>
          if Ascii.eqb a "-" && Ascii.eqb b ">" then "" :: split_arrow s''
          else match split_arrow s' with x :: xs => String a x :: xs | [] => [] end
      | EmptyString => [String a ""]
      end
  end.
Definition keys (l : list counts) : list string := flat_map (map fst) l.
Definition subset (a b : list string) : bool := forallb (fun x => mem_str x b) a.
(** Lines 166-177: a column of the matrix. *)
Definition count (d : counts) (e : string) : Z :=
  match find (fun p => String.eqb (fst p) e) d with Some p => snd p | None => 0%Z end.
Definition column (sign : Z) (elements : list string) (d : counts) : list Z := map (fun e => sign * count d e)%Z elements.

Section Balance.
Variable lstsq : list (list Z) -> list Z -> res (list Q).
Variable enum : list string -> list string.

(** Lines 138-181: the two sides and the solution of the linear system. *)
Definition reaction_system (equation : string) : res (list string * list string * (list (list Z) * list Z)) :=
  match split_arrow equation with
  | [left_side; right_side] =>
      let reactants := map strip (split_on "+" left_side) in
      let products := map strip (split_on "+" right_side) in
      let* reactant_list := parse_equation_side reactants in
      let* product_list := parse_equation_side products in
      let unique_reactants := enum (keys reactant_list) in
      let unique_products := enum (keys product_list) in
      if subset unique_products unique_reactants && subset unique_reactants unique_products then
        let cols := map (column 1 unique_reactants) reactant_list ++ map (column (-1) unique_reactants) product_list in
        Ok (reactants, products, (removelast cols, last cols []))
      else Raise ETypeError      (* ImproperChemicalEquation takes no arguments *)
  | _ => Raise EValueError
  end.
(** Lines 184-202: the coefficients. *)
Definition coefficients (x : list Q) : res (list expo) :=
  let x := map (fun x => limit_denominator (- x)) x in
  let* multiple := get_fraction_lcm x in
  let sol := map (fun x => int_of_frac (Qred (x * multiple))) x ++ [int_of_frac multiple] in
  let gcd := gcd_list sol in
  mapM (fun x => if (gcd =? 0)%Z then Raise EZeroDivisionError else Ok (eflt (fl (Q2Qc (x # Z.to_pos gcd))))) sol.
(** Lines 204-211. *)
Definition show_side (coeff : list expo) (names : list string) : res string :=
  let* l := mapM (fun p => let* t := str_expo (fst p) in Ok (t +++ " " +++ snd p)) (combine coeff names) in
  Ok (join " + " l).
Definition balance_equation (equation : string) : res string :=
  let* r := reaction_system equation in
  let '(reactants, products, (a, b)) := r in
  let* x := lstsq a b in
  let* sol := coefficients x in
  let* reactant_string := show_side (firstn (length reactants) sol) reactants in
  let* product_string := show_side (skipn (length reactants) sol) products in
  Ok (reactant_string +++ " -> " +++ product_string).
End Balance.
