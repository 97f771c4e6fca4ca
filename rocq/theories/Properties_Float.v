(** * Properties of exponents held as floats (C80, C81, C82)

    [g_py_mul E], [g_py_div E], [g_py_pow E] : the operators with the arithmetic
    [E] for exponents (FloatExp.v); [exact_ops] is exact, [float_ops] rounds to
    binary64.  [modest k n l] : the exponents of [l] are multiples of 2^-k and fit
    in 53 bits together with everything the pipeline makes of them; [parts a] : the
    units of a value; [bare a] : the name of a Unit contains no ^ (FloatSpec.v). *)
From Coq Require Import String Ascii List ZArith QArith Qcanon Bool Reals.
From Verif Require Import Py Num UnitsData UnitsStruct Units FloatExp FloatSpec FloatOps FloatRound FloatConvert FloatCases.
Import ListNotations.
Local Open Scope string_scope.
Local Open Scope list_scope.
Local Open Scope R_scope.

(** ** C80 *)
Theorem C80_rounding_exact : forall e, short e -> fl (ev e) = ev e.
Proof. exact short_fl. Qed.
Print Assumptions C80_rounding_exact.
Theorem C80_rounding_near : forall q, 1 <= QcR q -> Rabs (QcR (fl q) - QcR q) <= QcR q * / 2 ^ 53.
Proof. exact fl_near. Qed.
Print Assumptions C80_rounding_near.
Example C80_rounding_case : fl (Q2Qc (1 # 10)) = Q2Qc (3602879701896397 # 36028797018963968) /\ fl (Q2Qc (1 # 3)) = Q2Qc (6004799503160661 # 18014398509481984) /\
  fl (qc 9007199254740993) = qc 9007199254740992 /\ fl (qc 9007199254740995) = qc 9007199254740996 /\ fl (Q2Qc (- (5 # 4))) = Q2Qc (- (5 # 4)).
Proof. exact fl_cases_. Qed.

(** With exact exponents these are the functions of Units.v. *)
Theorem C80_model : forall T (N : Num T) (a b : pyval T) p,
  g_py_mul exact_ops a b = py_mul a b /\ g_py_div exact_ops a b = py_div a b /\ g_py_pow exact_ops a p = py_pow a p.
Proof. exact model_exact. Qed.
Print Assumptions C80_model.

(** The full claim, that rounded exponents always give the results of exact
    ones, is refuted below; it holds for modest exponents. *)
Theorem C80_mul_partial : forall T (N : Num T) k n (a b : pyval T), bare a -> bare b -> modest k n (parts a ++ parts b) ->
  g_py_mul float_ops a b = py_mul a b.
Proof. exact @mul_same_all. Qed.
Print Assumptions C80_mul_partial.
Theorem C80_div_partial : forall T (N : Num T) k n (a b : pyval T), bare a -> bare b -> modest k n (parts a ++ parts b) ->
  g_py_div float_ops a b = py_div a b.
Proof. exact @div_same_all. Qed.
Print Assumptions C80_div_partial.
Theorem C80_pow_partial : forall T (N : Num T) k n (a : pyval T) p, bare a -> short p -> (forall x, In x (parts a) -> short (bexp x)) ->
  modest k n (raised p (parts a)) -> g_py_pow float_ops a p = py_pow a p.
Proof. exact @pow_same_all. Qed.
Print Assumptions C80_pow_partial.
(** Multiples of 1/256 with a total width of 512 and four masses are modest. *)
Theorem C80_everyday : forall l, (forall x, In x l -> dyadic 8 (bexp x)) -> amount seeds l <= 4 -> amount width l <= 512 -> modest 8 8 l.
Proof. exact everyday. Qed.
Print Assumptions C80_everyday.
Example C80_case : bare case_a /\ bare case_b /\ modest 8 8 (parts case_a ++ parts case_b).
Proof. exact case_modest. Qed.
Example C80_power_case : bare case_c /\ short half_ /\ (forall x, In x (parts case_c) -> short (bexp x)) /\ modest 8 8 (raised half_ (parts case_c)).
Proof. exact case_power. Qed.

(** s^0.1 * s^0.2 / s^0.3 is no plain number; (s^0.1)^3 cannot be added to s^0.3. *)
Theorem C80_decimals_refuted : exists x y z,
  (let* p := py_mul (second 1%Q (eflt x)) (second 1%Q (eflt y)) in py_div p (second 1%Q (eflt z))) = Ok (VNum 1%Q) /\
  exists e, (let* p := g_py_mul float_ops (second 1%Q (eflt (fl x))) (second 1%Q (eflt (fl y))) in
             g_py_div float_ops p (second 1%Q (eflt (fl z)))) = Ok (second 1%Q e).
Proof. exact decimals. Qed.
Print Assumptions C80_decimals_refuted.
Theorem C80_powers_refuted : exists x y,
  (exists r, (let* p := py_pow (second 1%Q (eint 1)) (eflt x) in let* p := py_pow p (eint 3) in
              let* q := py_pow (second 1%Q (eint 1)) (eflt y) in py_add p q) = Ok r) /\
  (let* p := g_py_pow float_ops (second 1%Q (eint 1)) (eflt (fl x)) in let* p := g_py_pow float_ops p (eint 3) in
   let* q := g_py_pow float_ops (second 1%Q (eint 1)) (eflt (fl y)) in py_add p q) = Raise ETypeError.
Proof. exact decimal_powers. Qed.
Print Assumptions C80_powers_refuted.
(** Taking the n-th root of a Unit and the n-th power again: the float 1/n times
    n rounds to 1 up to n = 48. *)
Theorem C80_roots_partial : forall T (N : Num T) (c : ucls) (v : T) nm n r r', (1 <= n <= 48)%Z -> bare (VUnit (UO c v nm (eint 1))) ->
  g_py_pow float_ops (VUnit (UO c v nm (eint 1))) (root n) = Ok r -> g_py_pow float_ops r (eint n) = Ok r' ->
  parts r' = [BU nm (eflt (qc 1))].
Proof. exact roots. Qed.
Print Assumptions C80_roots_partial.
Example C80_roots_case : bare (second 1%Q (eint 1)) /\ exists r r', g_py_pow float_ops (second 1%Q (eint 1)) (root 3) = Ok r /\ g_py_pow float_ops r (eint 3) = Ok r'.
Proof. split; [intros [e|[]]; discriminate e|]. eexists. eexists. split; [vm_compute; reflexivity|]. vm_compute. reflexivity. Qed.
Theorem C80_roots_refuted : exists n r r', (1 <= n)%Z /\ g_py_pow float_ops (second 1%Q (eint 1)) (root n) = Ok r /\
  g_py_pow float_ops r (eint n) = Ok r' /\
  exists e, parts r' = [BU "s" e] /\ ev e <> qc 1 /\ py_add (second 1%Q (eint 1)) r' = Raise ETypeError.
Proof. exact root49. Qed.
Print Assumptions C80_roots_refuted.

(** ** C81: get_exponent_total *)
Theorem C81_total : forall T (m : multi_obj T), QcR (ev (g_exponent_total exact_ops m)) = total (mtop m) + total (mbot m).
Proof. exact total_exact. Qed.
Print Assumptions C81_total.
Theorem C81_floats : forall T (m : multi_obj T) k n, modest k n (parts (VMulti m)) -> g_exponent_total float_ops m = g_exponent_total exact_ops m.
Proof. exact total_same. Qed.
Print Assumptions C81_floats.
Example C81_case : modest 8 8 (parts (VMulti case_total)) /\ QcR (ev (g_exponent_total exact_ops case_total)) = 4.
Proof. exact case_total_ok. Qed.

(** ** C82: parsing and conversions

    Reading a unit from text rounds each of its exponents and does nothing else;
    [rounded r l] : the exponents of [l] passed through [r].  [fits k l] : multiples
    of 2^-k whose total width leaves room for what a conversion computes
    (FloatSpec.v). *)
Theorem C82_parse : forall s, g_parse_units float_ops s =
  match parse_units s with Ok p => Ok (rounded fl (fst p), rounded fl (snd p)) | Raise e => Raise e end.
Proof. exact parse_rounds. Qed.
Print Assumptions C82_parse.
Theorem C82_build : forall T (c : mcls) (v : T) s, (forall p, parse_units s = Ok p -> forall x, In x (fst p ++ snd p) -> short (bexp x)) ->
  g_mk_multi float_ops c v s = mk_multi c v s.
Proof. exact @mk_multi_same. Qed.
Print Assumptions C82_build.
(** With exact exponents these are the functions of Units.v. *)
Theorem C82_model : forall T (N : Num T) tb (a : multi_obj T) (u : unit_obj T) s,
  g_multi_convert_to exact_ops tb a s = multi_convert_to tb a s /\ g_unit_convert_to exact_ops tb u s = unit_convert_to tb u s.
Proof. exact conversions_exact. Qed.
Print Assumptions C82_model.
(** Converting a Unit: the exponent in the target is all that is rounded. *)
Theorem C82_unit : forall T (N : Num T) tb (u : unit_obj T) s,
  (forall r e q, split_on "^" s = [r; e] -> py_float e = Ok q -> short (eflt q)) -> g_unit_convert_to float_ops tb u s = unit_convert_to tb u s.
Proof. exact @unit_convert_same. Qed.
Print Assumptions C82_unit.
(** The full claim, that rounded exponents never change a conversion, is refuted below. *)
Theorem C82_multi_partial : forall T (N : Num T) tb j k (a : multi_obj T) s, fits j (parts (VMulti a)) ->
  (forall p, parse_units s = Ok p -> fits k (fst p ++ snd p)) -> g_multi_convert_to float_ops tb a s = multi_convert_to tb a s.
Proof. exact @multi_convert_same. Qed.
Print Assumptions C82_multi_partial.
Example C82_case : fits 8 (parts (VMulti case_mix)) /\ exists p, parse_units "psi^0.5*ft^2/min^3" = Ok p /\ fits 8 (fst p ++ snd p).
Proof. exact case_conv. Qed.
(** s^0.1*s^0.2 cannot be converted to s^0.3, but to s^0.30000000000000004. *)
Theorem C82_refused_refuted : exists s t,
  (exists r, (let* a := mk_multi MMulti 5%Q s in multi_convert_to tables0 a t) = Ok r /\ mv r = 5%Q) /\
  (let* a := g_mk_multi float_ops MMulti 5%Q s in g_multi_convert_to float_ops tables0 a t) = Raise EUnitConversionError.
Proof. exact conv_refused. Qed.
Print Assumptions C82_refused_refuted.
Theorem C82_accepted_refuted : exists s t,
  (let* a := mk_multi MMulti 5%Q s in multi_convert_to tables0 a t) = Raise EUnitConversionError /\
  exists r, (let* a := g_mk_multi float_ops MMulti 5%Q s in g_multi_convert_to float_ops tables0 a t) = Ok r /\ mv r = 5%Q.
Proof. exact conv_accepted. Qed.
Print Assumptions C82_accepted_refuted.
