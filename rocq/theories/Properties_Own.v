(** * Converting to the unit at hand changes nothing (C121)

    A quantity made from a unit text, converted to the same text. *)
From Coq Require Import String Ascii List ZArith QArith Qcanon Bool Reals Floats.SpecFloat.
From Verif Require Import Py Num UnitsData UnitsStruct Units Rounding ReadSpec SignSpec CommuteFacts OwnFacts OwnFloat.
Import ListNotations.
Local Open Scope string_scope.
Local Open Scope list_scope.
Local Open Scope R_scope.

(** With any tables: what comes out is what went in. *)
Theorem C121_multi : forall (tb : tables R) c (v : R) s a r, mk_multi c v s = Ok a -> multi_convert_to tb a s = Ok r -> r = a.
Proof. exact own_multi. Qed.
Print Assumptions C121_multi.
Theorem C121_empty : forall (tb : tables R) (a r : multi_obj R), multi_convert_to tb a "" <> Ok r.
Proof. exact own_empty. Qed.
Print Assumptions C121_empty.
(** In binary64, with any power function: the value comes out bit by bit, or nan
    if the factor overflows. *)
Theorem C121_float : forall p (tb : tables spec_float) c v s a r, binary64 v -> @mk_multi spec_float c v s = Ok a -> s <> "" -> @multi_convert_to spec_float (Bpow p) tb a s = Ok r ->
  r = a \/ r = MO c S754_nan (mtop a) (mbot a).
Proof. exact own_float. Qed.
Print Assumptions C121_float.
Theorem C121_nan_refuted : @mk_multi spec_float MMulti one64 "km^100*km^100" = Ok huge /\ binary64 one64 /\
  @multi_convert_to spec_float Bnum (@tables0 spec_float Bnum) huge "km^100*km^100" = Ok (MO MMulti S754_nan (mtop huge) (mbot huge)).
Proof. exact own_nan. Qed.
Print Assumptions C121_nan_refuted.
(** Exactly when something comes out. *)
Theorem C121_multi_exact : forall c (v : R) s a, mk_multi c v s = Ok a -> s <> "" ->
  ((exists r, multi_convert_to tables0 a s = Ok r) <-> understood (mtop a) /\ understood (mbot a) /\ ~ lost (mtop a) /\ ~ lost (mbot a)).
Proof. exact own_exact. Qed.
Print Assumptions C121_multi_exact.
Theorem C121_unit : forall (tb : tables R) u, has_char "^" (un u) = false ->
  unit_convert_to tb u (un u) = if in_dec string_dec (un u) ["L"; "acre"] then Raise EValueError else Ok u.
Proof. exact own_unit. Qed.
Print Assumptions C121_unit.
(** Whatever the exponent in the target. *)
Theorem C121_power : forall (tb : tables R) u d q, has_char "^" (un u) = false -> ~ In (un u) ["L"; "acre"] -> has_char "^" d = false -> py_float d = Ok q ->
  unit_convert_to tb u (un u +++ String "^" d) = Ok u.
Proof. exact own_power. Qed.
Print Assumptions C121_power.
(** 5 W*W cannot be converted to W*W, nor 5 L to L. *)
Theorem C121_watts_refuted : mk_multi MMulti 5 "W*W" = Ok watts /\ forall r, multi_convert_to tables0 watts "W*W" <> Ok r.
Proof. exact own_watts. Qed.
Print Assumptions C121_watts_refuted.
Theorem C121_litre_refuted : mk_unit Volume 5 "L" (eint 1) = Ok (UO Volume 5 "L" (eint 1)) /\ forall tb, unit_convert_to tb (UO Volume (5 : R) "L" (eint 1)) "L" = Raise EValueError.
Proof. exact own_litre. Qed.
Print Assumptions C121_litre_refuted.
Example C121_case : mk_multi MMulti 3 "km/hr" = Ok speed_a /\ exists r, multi_convert_to tables0 speed_a "km/hr" = Ok r.
Proof. exact own_case. Qed.
