(** * PrintSpec: what a printed quantity should tell

    Nothing here mentions the functions of the model. *)
From Coq Require Import String Ascii List ZArith QArith Qcanon Bool Reals Qreals.
From Coq Require Import Floats.SpecFloat.
From Verif Require Import Py UnitsStruct TextSpec RangeSpec.
From Verif Require Import Print.
Import ListNotations.
Local Open Scope R_scope.

(** ** Reading a decimal

    IEEE 754: a number is read as the nearest binary64 number, of two equally
    near ones as that with the even significand.  From halfway between the largest
    number and 2^1024 on it is read as infinite. *)
Definition even_float (x : spec_float) : Prop :=
  match x with S754_finite _ m _ => Z.even (Zpos m) = true | _ => True end.
Definition nearest64 (v : R) (x : spec_float) : Prop :=
  finite64 x /\ Rabs v < IZR (2 ^ 54 - 1) * powerRZ 2 970 /\
  (forall y, finite64 y -> Rabs (SFR x - v) <= Rabs (SFR y - v)) /\
  (forall y, finite64 y -> Rabs (SFR x - v) = Rabs (SFR y - v) -> SFR y <> SFR x -> even_float x).

(** The number of digits without zeros at either end. *)
Fixpoint drop0 (l : list nat) : list nat :=
  match l with O :: l' => drop0 l' | _ => l end.
Definition sig_digits (n : numeral) : nat :=
  List.length (drop0 (rev (drop0 (nwhole n ++ frac_digits n)))).
(** Written with a minus sign. *)
Definition minus (n : numeral) : bool := match nsign n with Some true => true | _ => false end.
Definition sign_bit (x : spec_float) : bool :=
  match x with S754_zero s | S754_infinity s | S754_finite s _ _ => s | S754_nan => false end.

(** How Python lays out a decimal.  Without an exponent: digits on both sides of the
    point, no zero that could be left out.  With an exponent: one digit, not 0,
    before the point; no point without digits after it, and no zero at the end; a
    sign and at least two digits in the exponent. *)
Definition neat_head (l : list nat) : Prop := exists d r, l = d :: r /\ (d = O -> r = nil).
Definition layout (n : numeral) : Prop :=
  nsign n <> Some false /\
  match nexp n with
  | None => neat_head (nwhole n) /\ exists f, nfrac n = Some f /\ neat_head (rev f)
  | Some (s, e) =>
      (exists d, nwhole n = [d] /\ d <> O) /\ (forall f, nfrac n = Some f -> exists d r, rev f = d :: r /\ d <> O) /\
      s <> None /\ (2 <= List.length e)%nat /\ ((2 < List.length e)%nat -> exists d r, e = d :: r /\ d <> O)
  end.
(** Without an exponent from 1/10000 to below 10^16. *)
Definition plain_size (v : R) : Prop := v = 0 \/ / 10000 <= Rabs v < 10 ^ 16.

(** 0 or at least the smallest number with a full significand. *)
Definition normal_size (v : R) : Prop := v = 0 \/ powerRZ 2 (-1022) <= Rabs v.

(** ** Objects *)
(** A value that is not infinite or NaN, and the number it is. *)
Definition held_num (v : pynum) : Prop := match v with PInt _ => True | PFloat x => finite64 x end.
Definition num_R (v : pynum) : R := match v with PInt z => IZR z | PFloat x => SFR x end.
(** Letters, digits and the caret of names like cm^3. *)
Definition name_char (c : ascii) : bool :=
  let n := nat_of_ascii c in
  (Nat.leb 65 n && Nat.leb n 90) || (Nat.leb 97 n && Nat.leb n 122) || (Nat.leb 48 n && Nat.leb n 57) || Nat.eqb n 94.
Fixpoint name_text (s : string) : bool :=
  match s with EmptyString => true | String c s' => name_char c && name_text s' end.
(** A unit whose name consists of these and whose exponent is displayed without loss. *)
Definition printable (x : bu) : Prop := name_text (bname x) = true /\ bname x <> EmptyString /\ showable x.
Definition name_exp (x : bu) : string * Qc := (bname x, ev (bexp x)).
(** The units above and below the slash of a printed MultiUnit. *)
Definition above (top bot : half) : half := top ++ map flip_bu (filter negative bot).
Definition below (bot : half) : half := filter (fun x => negb (negative x)) bot.
(** No units, or one unit above and at most one below, without exponents. *)
Definition survives (top bot : half) : Prop :=
  (top = nil /\ bot = nil) \/
  exists x, top = [x] /\ ev (bexp x) = Q2Qc 1 /\ (bot = nil \/ exists y, bot = [y] /\ ev (bexp y) = Q2Qc 1).
