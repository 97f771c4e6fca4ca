(** * Print: the text of a quantity

    f"{self._value} {...}" of [Unit.__repr__] and [MultiUnit.__repr__].  A value is
    an int or a binary64 float. *)
From Coq Require Import String Ascii List ZArith QArith Qcanon Bool.
From Coq Require Import Floats.SpecFloat.
From Verif Require Import Py Num UnitsData UnitsStruct Units Rounding.
Import ListNotations.
Local Open Scope string_scope.
Local Open Scope Z_scope.

(** ** str() of a float

    CPython's repr of a float (what f"{x}" writes): the shortest decimal that
    float() reads back as [x], the nearest to [x] of those.  [n] digits are tried
    for n = 1, 2, ...; of the two decimals of [n] digits around [x] the nearer one
    is tried first (the even one if both are equally near). *)

(** z * 10^k as float() reads it. *)
Definition dec_float (z k : Z) : spec_float :=
  if Z.leb 0 k then f_lit (z * 10 ^ k # 1) else f_lit (z # Z.to_pos (10 ^ (- k))).
Definition same_float (x y : spec_float) : bool :=
  match x, y with
  | S754_finite s m e, S754_finite t n f => Bool.eqb s t && Pos.eqb m n && Z.eqb e f
  | _, _ => false
  end.

(** m * 2^e * 10^j as a fraction. *)
Definition scaled (m : positive) (e j : Z) : Z * Z :=
  (Zpos m * 2 ^ Z.max e 0 * 10 ^ Z.max j 0, 2 ^ Z.max (- e) 0 * 10 ^ Z.max (- j) 0).
Definition ndigits (z : Z) : Z := Z.of_nat (String.length (show_nonneg z)).
(** The k with 10^(k-1) <= m * 2^e < 10^k. *)
Definition decpt (m : positive) (e : Z) : Z :=
  let '(a, b) := scaled m e 330 in ndigits (a / b) - 330.

(** The decimal z * 10^(k-n) of at most [n] digits for the float [m * 2^e], if
    there is one. *)
Definition pick (m : positive) (e k n : Z) : option Z :=
  let '(a, b) := scaled m e (n - k) in
  let q := a / b in
  let r := a mod b in
  let up := match 2 * r ?= b with Lt => false | Gt => true | Eq => Z.odd q end in
  let '(y, z) := if up then (q + 1, q) else (q, q + 1) in
  let ok v := same_float (dec_float v (k - n)) (S754_finite false m e) in
  if ok y then Some y else if ok z then Some z else None.
Fixpoint shortest (fuel : nat) (m : positive) (e k n : Z) : res (Z * Z) :=
  match fuel with
  | O => Raise OutOfFuel
  | S f =>
      match pick m e k n with
      | Some z => Ok (z, k - n)
      | None => shortest f m e k (n + 1)
      end
  end.

(** Trailing zeros are not written. *)
Fixpoint trim (fuel : nat) (z k : Z) : Z * Z :=
  match fuel with
  | O => (z, k)
  | S f => if Z.eqb (z mod 10) 0 then trim f (z / 10) (k + 1) else (z, k)
  end.

(** z * 10^k, z without trailing zeros: plain notation for numbers from 1/10000 to
    10^16, otherwise one digit before the point and the exponent with a sign and
    at least two digits. *)
Definition show_exp (x : Z) : string :=
  (if Z.ltb x 0 then "-" else "+") +++ show_padded 2 (Z.abs x).
Definition zeros_text (n : Z) : string := pad_zeros (Z.to_nat n) "".
Definition format (z k : Z) : string :=
  let d := show_nonneg z in
  let n := Z.of_nat (String.length d) in
  let p := n + k in
  if Z.leb p (-4) || Z.ltb 16 p then
    (if Z.eqb n 1 then d else substring 0 1 d +++ "." +++ substring 1 (String.length d - 1) d)
      +++ "e" +++ show_exp (p - 1)
  else if Z.leb p 0 then "0." +++ zeros_text (- p) +++ d
  else if Z.leb n p then d +++ zeros_text k +++ ".0"
  else substring 0 (Z.to_nat p) d +++ "." +++ substring (Z.to_nat p) (String.length d - Z.to_nat p) d.

Definition float_repr (x : spec_float) : res string :=
  match x with
  | S754_zero s => Ok ((if s then "-" else "") +++ "0.0")
  | S754_infinity s => Ok ((if s then "-" else "") +++ "inf")
  | S754_nan => Ok "nan"
  | S754_finite s m e =>
      let* (z, k) := shortest 17 m e (decpt m e) 1 in
      let (z', k') := trim 17 z k in
      Ok ((if s then "-" else "") +++ format z' k')
  end.

(** ** Objects *)
Inductive pynum := PInt (z : Z) | PFloat (x : spec_float).
Definition num_str (v : pynum) : res string :=
  match v with PInt z => Ok (show_Z z) | PFloat x => float_repr x end.

(** Unit.__repr__, units.py:174-178. *)
Definition unit_repr (u : unit_obj pynum) : res string :=
  let* v := num_str (uv u) in
  if e_is (ue u) 1 then Ok (v +++ " " +++ un u)
  else let* s := show_sup (un u) (ue u) in Ok (v +++ " " +++ s).
(** MultiUnit.__repr__, units.py:956-958; get_unit_string comes first. *)
Definition multi_repr (m : multi_obj pynum) : res string :=
  let* s := get_unit_string (mtop m) (mbot m) in
  let* v := num_str (mv m) in
  Ok (v +++ " " +++ s).
(** BaseUnit.__repr__, units.py:315-319. *)
Definition base_repr (x : bu) : res string :=
  if e_is (bexp x) 1 then Ok (bname x)
  else let* s := str_expo (bexp x) in Ok (bname x +++ "^" +++ s).
