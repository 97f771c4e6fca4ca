(** * ReadSpec: what the conversion of a MultiUnit takes every unit for

    Written out name by name from the tables of units/units.py; no function of the
    model is used.  First the prefix letters come off ([rooted]), then one pass
    opens the derived units except those that directly follow an opened one, and
    each unit left is replaced by a multiple of a standard unit. *)
From Coq Require Import String Ascii List ZArith QArith Qcanon Bool Reals Qreals.
From Verif Require Import Py Num UnitsData UnitsStruct Units Spec PrefixSpec PassSpec.
Import ListNotations.
Local Open Scope string_scope.
Local Open Scope list_scope.
Local Open Scope R_scope.

(** [true]: the unit is not looked at by the pass, since an opened unit stands before it. *)
Fixpoint marked (l : half) : list (bool * bu) :=
  match l with
  | nil => nil
  | x :: l' =>
      if is_derived x then
        match l' with
        | nil => [(false, x)]
        | y :: l'' => (false, x) :: (true, y) :: marked l''
        end
      else (false, x) :: marked l'
  end.

(** Opened units, as multiples of kg, m, s, A (and N for psi). *)
Definition opened_sizes : list (string * Q) :=
  [("Pa", 1%Q); ("J", 1%Q); ("W", 1%Q); ("psi", (444822 # 100000) / ((254 # 10000) * (254 # 10000)))%Q;
   ("cP", 1 # 1000); ("C", 1%Q); ("V", 1%Q)].
(** Degrees: the number is multiplied by the exponent, not raised to it.  C is
    the coulomb here as well, if the pass has not looked at it. *)
Definition degree_sizes : list (string * Q) := [("K", 1%Q); ("C", 1%Q); ("R", 5 # 9); ("F", 5 # 9)].
(** Accepted with exponent 1 only: cubic and square metres. *)
Definition bulk_sizes : list (string * (Z * Q)) := [("L", (3%Z, 1 # 1000)); ("acre", (2%Z, 4046873 # 1000))].
Definition read_sizes : list (string * (string * Q)) :=
  [("um", ("m", 1 # 1000000)); ("mm", ("m", 1 # 1000)); ("cm", ("m", 1 # 100)); ("dm", ("m", 1 # 10)); ("km", ("m", 1000 # 1));
   ("m", ("m", 1%Q)); ("ft", ("m", 3048 # 10000)); ("in", ("m", 254 # 10000)); ("yd", ("m", 9144 # 10000)); ("mile", ("m", 160934 # 100));
   ("ug", ("kg", 1 # 1000000000)); ("mg", ("kg", 1 # 1000000)); ("dg", ("kg", 1 # 10000)); ("kg", ("kg", 1%Q)); ("Mg", ("kg", 1000 # 1));
   ("g", ("kg", 1 # 1000)); ("lb", ("kg", 453592 # 1000000)); ("A", ("A", 1%Q)); ("s", ("s", 1%Q)); ("min", ("s", 60 # 1));
   ("hr", ("s", 3600 # 1)); ("day", ("s", 86400 # 1)); ("uJ", ("J", 1 # 1000000)); ("mJ", ("J", 1 # 1000)); ("cJ", ("J", 1 # 100));
   ("dJ", ("J", 1 # 10)); ("kJ", ("J", 1000 # 1)); ("MJ", ("J", 1000000 # 1)); ("J", ("J", 1%Q)); ("BTU", ("J", 1055056 # 1000));
   ("uPa", ("Pa", 1 # 1000000)); ("mPa", ("Pa", 1 # 1000)); ("dPa", ("Pa", 1 # 10)); ("kPa", ("Pa", 1000 # 1));
   ("MPa", ("Pa", 10000000 # 1)); ("psi", ("Pa", 689476 # 100)); ("Pa", ("Pa", 1%Q)); ("atm", ("Pa", 101325 # 1));
   ("bar", ("Pa", 100000 # 1)); ("mmHg", ("Pa", 133322 # 1000)); ("uN", ("N", 1 # 1000000)); ("mN", ("N", 1 # 1000));
   ("dN", ("N", 1 # 10)); ("kN", ("N", 1000 # 1)); ("MN", ("N", 1000000 # 1)); ("N", ("N", 1%Q)); ("lbf", ("N", 444822 # 100000));
   ("mol", ("mol", 1%Q))].

(** What a unit is taken for: a number times a power of a standard unit. *)
Definition stands (kept : bool) (x : bu) : option (R * (string * Z)) :=
  let n := bname x in
  let e := QcR (ev (bexp x)) in
  match (if kept then None else dict_get opened_sizes n) with
  | Some q => Some (Rpower (Q2R q) e, (n, 1%Z))
  | None =>
      match dict_get degree_sizes n with
      | Some q => Some (Q2R q * e, (n, 1%Z))
      | None =>
          match dict_get bulk_sizes n with
          | Some (k, q) => if Qc_eq_dec (ev (bexp x)) (qc 1) then Some (Q2R q, ("m", k)) else None
          | None =>
              match dict_get read_sizes n with
              | Some (s, q) => Some (Rpower (Q2R q) e, (s, 1%Z))
              | None => None
              end
          end
      end
  end.

(** The dimension the standard units have for the conversion; a newton is not a kg m/s^2. *)
Definition vectors : list (string * list (ucls * Z)) :=
  [("m", [(Length, 1)]); ("kg", [(Mass, 1)]); ("s", [(Time, 1)]); ("A", [(Current, 1)]); ("mol", [(Amount, 1)]); ("N", [(Force, 1)]);
   ("K", [(Temperature, 1)]); ("R", [(Temperature, 1)]); ("F", [(Temperature, 1)]); ("C", [(Current, 1); (Time, 1)]);
   ("J", [(Mass, 1); (Length, 2); (Time, -2)]); ("Pa", [(Mass, 1); (Length, -1); (Time, -2)]);
   ("W", [(Mass, 1); (Length, 2); (Time, -3)]); ("V", [(Mass, 1); (Length, 2); (Time, -3); (Current, -1)]);
   ("cP", [(Mass, 1); (Length, -1); (Time, -1)]); ("psi", [(Force, 1); (Length, -2)])]%Z.
Definition vector (s : string) (c : ucls) : Z :=
  match dict_get vectors s with
  | Some v => fold_right (fun p a => if ucls_eqb (fst p) c then (snd p + a)%Z else a) 0%Z v
  | None => 0%Z
  end.

(** A half every unit of which is taken for something. *)
Definition understood (l : half) : Prop :=
  (forall x, In x l -> bname x <> "") /\ forall k x, In (k, x) (marked (rooted l)) -> stands k x <> None.
Definition number_of (m : bool * bu) : R := match stands (fst m) (snd m) with Some (r, _) => r | None => 1 end.
Definition dim_of (c : ucls) (m : bool * bu) : Qc :=
  match stands (fst m) (snd m) with Some (_, (s, k)) => (ev (bexp (snd m)) * (qc k * qc (vector s c)))%Qc | None => qc 0 end.
(** The number a half is taken for, prefixes included, and its dimension. *)
Definition seen (l : half) : R := usize pscale l * fold_right Rmult 1 (map number_of (marked (rooted l))).
Definition seen_dim (l : half) (c : ucls) : Qc := fold_right Qcplus (qc 0) (map (dim_of c) (marked (rooted l))).
Definition seen_size (top bot : half) : R := seen top / seen bot.
