(** * Py: the fragment of Python semantics the model needs

    Exceptions are values ([res]); strings are Coq [string]s (one [ascii] per
    Python character; unit names are taken to be ASCII).  Numbers that are used
    as exponents are [expo]: an exact rational together with the Python type tag
    (int or float), because [str] and hashing tell 2 and 2.0 apart. *)
From Coq Require Import String Ascii List ZArith QArith Qcanon Bool Lia.
Import ListNotations.
Local Open Scope string_scope.
Local Open Scope list_scope.

(** String concatenation ([++] is list concatenation throughout). *)
Infix "+++" := String.append (at level 60, right associativity).

(** Python exceptions that the modelled code can raise.
    [Unmodelled] marks a Python behaviour outside the model (complex numbers,
    inf/nan, a float whose decimal text is not computed); [OutOfFuel] marks a
    loop bound of the model and is proved unreachable wherever it occurs. *)
Inductive exn :=
| EValueError | EKeyError | ETypeError | EZeroDivisionError | EAttributeError
| ENameError | EIndexError | EUnboundLocalError
| EUnitConversionError   (* units.py:18 *)
| EUnknownPrefix         (* units.py:21 *)
| EIncorrectUnits        (* units.py:24 *)
| EUnsolvableEquation    (* equation_solving.py:7 *)
| ESolutionNotSupported  (* equation_solving.py:10 *)
| EOverSpecifiedProblem  (* equation_solving.py:13 *)
| EOutOfRangeProperty    (* get_chemical_properties.py:8 *)
| Unmodelled
| OutOfFuel.

Inductive res (A : Type) :=
| Ok (a : A)
| Raise (e : exn).
Arguments Ok {A} a.
Arguments Raise {A} e.

Definition bind {A B} (x : res A) (f : A -> res B) : res B :=
  match x with Ok a => f a | Raise e => Raise e end.
Definition rmap {A B} (f : A -> B) (x : res A) : res B :=
  match x with Ok a => Ok (f a) | Raise e => Raise e end.

Notation "'let*' x ':=' e 'in' f" := (bind e (fun x => f))
  (at level 200, x pattern, e at level 100, f at level 200, right associativity).

(** [[f(x) for x in l]] where [f] may raise. *)
Fixpoint mapM {A B} (f : A -> res B) (l : list A) : res (list B) :=
  match l with
  | nil => Ok nil
  | x :: l' => let* y := f x in let* ys := mapM f l' in Ok (y :: ys)
  end.

(** ** Strings *)

Definition mem_str (s : string) (l : list string) : bool :=
  existsb (String.eqb s) l.

(** Lookup in a Python dict written as a list of pairs in which a later binding
    of a key overrides an earlier one (dict displays and [**] merging). *)
Fixpoint dict_get {V} (d : list (string * V)) (k : string) : option V :=
  match d with
  | nil => None
  | (k', v) :: d' =>
      match dict_get d' k with
      | Some v' => Some v'
      | None => if String.eqb k' k then Some v else None
      end
  end.

(** Python [str.split(c)] for a one-character separator. *)
Fixpoint split_on (c : ascii) (s : string) : list string :=
  match s with
  | EmptyString => [EmptyString]
  | String a s' =>
      if Ascii.eqb a c then EmptyString :: split_on c s'
      else match split_on c s' with
           | nil => [String a EmptyString]          (* unreachable *)
           | x :: xs => String a x :: xs
           end
  end.

(** [c in s] for a one-character [c]. *)
Fixpoint has_char (c : ascii) (s : string) : bool :=
  match s with
  | EmptyString => false
  | String a s' => Ascii.eqb a c || has_char c s'
  end.

(** ASCII whitespace in the sense of [str.strip]. *)
Definition is_space (a : ascii) : bool :=
  let n := nat_of_ascii a in
  (Nat.eqb n 32) || ((Nat.leb 9 n) && (Nat.leb n 13)) || ((Nat.leb 28 n) && (Nat.leb n 31)).

Fixpoint lstrip (s : string) : string :=
  match s with
  | EmptyString => EmptyString
  | String a s' => if is_space a then lstrip s' else s
  end.

Fixpoint rstrip (s : string) : string :=
  match s with
  | EmptyString => EmptyString
  | String a s' =>
      let r := rstrip s' in
      if is_space a && String.eqb r EmptyString then EmptyString else String a r
  end.

(** Python [str.strip()]. *)
Definition strip (s : string) : string := rstrip (lstrip s).

Fixpoint join (sep : string) (l : list string) : string :=
  match l with
  | nil => EmptyString
  | [x] => x
  | x :: l' => x +++ sep +++ join sep l'
  end.

(** [needle in s]. *)
Fixpoint str_in (needle s : string) : bool :=
  String.prefix needle s ||
  match s with
  | EmptyString => false
  | String _ s' => str_in needle s'
  end.

(** ** Numbers as text *)

Definition is_digit (a : ascii) : bool :=
  let n := nat_of_ascii a in Nat.leb 48 n && Nat.leb n 57.
Definition digit_val (a : ascii) : Z := Z.of_nat (nat_of_ascii a) - 48.

Definition starts_digit (s : string) : bool :=
  match s with String c _ => is_digit c | EmptyString => false end.

(** A Python digit part: digits with single underscores between digits.
    Returns the value read, the number of digits read and the rest. *)
Fixpoint take_digits (acc : Z) (n : nat) (s : string) : Z * nat * string :=
  match s with
  | EmptyString => (acc, n, s)
  | String c s' =>
      if is_digit c then take_digits (acc * 10 + digit_val c)%Z (S n) s'
      else if Ascii.eqb c "_" && Nat.ltb 0 n && starts_digit s'
           then take_digits acc n s'
           else (acc, n, s)
  end.

Definition take_sign (s : string) : Z * string :=
  match s with
  | String c s' =>
      if Ascii.eqb c "-" then ((-1)%Z, s')
      else if Ascii.eqb c "+" then (1%Z, s')
      else (1%Z, s)
  | EmptyString => (1%Z, s)
  end.

Definition lower (a : ascii) : ascii :=
  let n := nat_of_ascii a in
  if Nat.leb 65 n && Nat.leb n 90 then ascii_of_nat (n + 32) else a.
Fixpoint str_lower (s : string) : string :=
  match s with EmptyString => EmptyString | String a s' => String (lower a) (str_lower s') end.

Definition pow10 (z : Z) : Q := Qpower (inject_Z 10) z.

(** Python [float(s)].  Simplification: the result is the exact rational the
    text denotes, not its nearest binary64 value; the texts inf, infinity and
    nan are [Unmodelled]; every other text Python rejects is a ValueError. *)
Definition py_float (s : string) : res Qc :=
  let s := strip s in
  let '(sg, s) := take_sign s in
  if mem_str (str_lower s) ["inf"; "infinity"; "nan"] then Raise Unmodelled
  else
    let '(m, n, s1) := take_digits 0 0 s in
    let '(m, n, k, s2) :=
      match s1 with
      | String c r =>
          if Ascii.eqb c "." then
            let '(m', n', r') := take_digits 0 0 r in
            ((m * 10 ^ Z.of_nat n' + m')%Z, (n + n')%nat, Z.of_nat n', r')
          else (m, n, 0%Z, s1)
      | EmptyString => (m, n, 0%Z, s1)
      end in
    if Nat.eqb n 0 then Raise EValueError
    else
      match s2 with
      | EmptyString => Ok (Q2Qc (inject_Z (sg * m) * pow10 (- k)))
      | String c r =>
          if Ascii.eqb (lower c) "e" then
            let '(esg, r) := take_sign r in
            let '(e, ne, r') := take_digits 0 0 r in
            match r' with
            | EmptyString =>
                if Nat.eqb ne 0 then Raise EValueError
                else Ok (Q2Qc (inject_Z (sg * m) * pow10 (esg * e - k)))
            | String _ _ => Raise EValueError
            end
          else Raise EValueError
      end.

(** Decimal text of a natural number; [fuel] bounds the number of digits. *)
Definition digit_char (z : Z) : ascii := ascii_of_nat (Z.to_nat (z + 48)).
Fixpoint show_digits (fuel : nat) (z : Z) (acc : string) : string :=
  match fuel with
  | O => acc
  | S f =>
      let acc' := String (digit_char (z mod 10)) acc in
      if Z.eqb (z / 10) 0 then acc' else show_digits f (z / 10) acc'
  end.
Definition show_nonneg (z : Z) : string :=
  show_digits (S (Z.to_nat (Z.log2 z))) z EmptyString.
(** Python [str(z)] for an int. *)
Definition show_Z (z : Z) : string :=
  if Z.ltb z 0 then "-" +++ show_nonneg (- z) else show_nonneg z.

(** ** Exponents: exact rationals with Python's int/float tag *)

Record expo := Ex { isf : bool; ev : Qc }.
Definition qc (z : Z) : Qc := Q2Qc (inject_Z z).
Definition eint (z : Z) : expo := Ex false (qc z).
Definition eflt (q : Qc) : expo := Ex true q.
Definition Qcltb (x y : Qc) : bool := negb (Qle_bool (this y) (this x)).
Definition Qcleb (x y : Qc) : bool := Qle_bool (this x) (this y).
(** Arithmetic of Python numbers: int op int is an int, otherwise float;
    true division is always a float. *)
Definition eadd (a b : expo) := Ex (isf a || isf b) (ev a + ev b)%Qc.
Definition esub (a b : expo) := Ex (isf a || isf b) (ev a - ev b)%Qc.
Definition emul (a b : expo) := Ex (isf a || isf b) (ev a * ev b)%Qc.
Definition ediv (a b : expo) := Ex true (ev a / ev b)%Qc.
Definition eopp (a : expo) := Ex (isf a) (- ev a)%Qc.
(** Python [==] and [<] between numbers compare values, not types. *)
Definition eeqb (a b : expo) : bool := Qc_eq_bool (ev a) (ev b).
Definition eltb (a b : expo) : bool := Qcltb (ev a) (ev b).
Definition e_is (a : expo) (z : Z) : bool := Qc_eq_bool (ev a) (qc z).

Definition is_int (q : Qc) : bool := Pos.eqb (Qden (this q)) 1.
(** Python [int(x)]: truncation toward zero. *)
Definition trunc (q : Qc) : Z := Z.quot (Qnum (this q)) (Zpos (Qden (this q))).

(** Number of decimals (at most [fuel]) after which [n/d] is integral. *)
Fixpoint dec_places (fuel : nat) (n : Z) (d : Z) : option nat :=
  if Z.eqb (n mod d) 0 then Some O
  else match fuel with
       | O => None
       | S f => match dec_places f (n * 10) d with Some k => Some (S k) | None => None end
       end.
Fixpoint pad_zeros (n : nat) (s : string) : string :=
  match n with O => s | S k => String "0" (pad_zeros k s) end.
Definition show_padded (k : nat) (z : Z) : string :=
  let s := show_nonneg z in pad_zeros (k - String.length s) s.

(** Python [str(x)] of an exponent.  Modelled for ints and for floats that are
    decimals with at most 15 digits, at most 12 of them after the point, of absolute
    value 0 or at least 1/10000; anything else is [Unmodelled]. *)
Definition str_expo (e : expo) : res string :=
  let n := Qnum (this (ev e)) in
  let d := Zpos (Qden (this (ev e))) in
  if negb (isf e) then Ok (show_Z (trunc (ev e)))
  else if Z.leb (10 ^ 15 * d) (Z.abs n) then Raise Unmodelled
  else if is_int (ev e) then Ok (show_Z n +++ ".0")
  else if Z.ltb (Z.abs n * 10000) d then Raise Unmodelled
  else match dec_places 12 (Z.abs n) d with
       | None => Raise Unmodelled
       | Some k =>
           let m := (Z.abs n * 10 ^ Z.of_nat k / d)%Z in
           if Z.leb (10 ^ 15) m then Raise Unmodelled
           else Ok ((if Z.ltb n 0 then "-" else "")
                      +++ show_nonneg (m / 10 ^ Z.of_nat k) +++ "."
                      +++ show_padded k (m mod 10 ^ Z.of_nat k))
       end.
