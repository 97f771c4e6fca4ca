(** * Properties of conversions, unit checks and registration (C24-C34, C52, C102)

    [simple u c v n] : the Unit [u] has class [c], value [v], name [n] and
    exponent 1.  [tables0] are the library's conversion tables, [si n] the size
    of the unit [n] in SI units, [physical w] a unit system in which the non-SI
    units have their sizes (ConvSpec.v). *)
From Coq Require Import String Ascii List ZArith QArith Qcanon Bool Reals Qreals Lra.
From Verif Require Import Py Num UnitsData UnitsStruct Units Spec SpecFacts WitnessFacts ExpandFacts
  ConvSpec ConvFacts ConvLaws ConvDims ConvTotal ConvCases UnitConvSpec UnitConvFacts UnitConvMore RegisterFacts UnitErrSpec UnitConvExact RegisterExact ReadSpec ReadFacts RefuseSpec RefuseFacts RegistrySpec RegistryNames.
Import ListNotations.
Local Open Scope string_scope.
Local Open Scope list_scope.
Local Open Scope R_scope.

(** ** C24 *)
Theorem C24_temperature : forall s t (v : R) u, simple u Temperature v (tname s) ->
  exists r v', unit_convert_to tables0 u (tname t) = Ok r /\ simple r Temperature v' (tname t) /\ kelvin t v' = kelvin s v.
Proof. exact temp_all. Qed.
Print Assumptions C24_temperature.
Theorem C24_there_and_back : forall s t (v : R) u r, simple u Temperature v (tname s) -> unit_convert_to tables0 u (tname t) = Ok r ->
  exists r', unit_convert_to tables0 r (tname s) = Ok r' /\ simple r' Temperature v (tname s).
Proof. exact temp_back. Qed.
Print Assumptions C24_there_and_back.
Theorem C24_third_scale : forall s m t (v : R) u r1 r2 r3, simple u Temperature v (tname s) -> unit_convert_to tables0 u (tname m) = Ok r1 ->
  unit_convert_to tables0 r1 (tname t) = Ok r2 -> unit_convert_to tables0 u (tname t) = Ok r3 ->
  uc r2 = uc r3 /\ uv r2 = uv r3 /\ un r2 = un r3 /\ ev (ue r2) = ev (ue r3).
Proof. exact temp_path. Qed.
Print Assumptions C24_third_scale.
Example C24_case : simple (UO Temperature 212 "F" (eint 1)) Temperature 212 (tname TF) /\ kelvin TF 212 = 373.15.
Proof. split; [repeat split|cbn; lra]. Qed.

(** ** C25

    The full claim quantifies over all names of the tables.  It holds exactly
    for [round_names] and up to a relative error of 1e-5 for ft, in and lb; it
    fails for mile.  Current and Amount have one name only, Volume and Area are
    covered by C27 and C52. *)
Theorem C25_round_trip_partial : forall c n t (v : R) u, In n (round_names c) -> In t (round_names c) -> simple u c v n ->
  exists r r', unit_convert_to tables0 u t = Ok r /\ un r = t /\ unit_convert_to tables0 r n = Ok r' /\ simple r' c v n.
Proof. exact round_exact. Qed.
Print Assumptions C25_round_trip_partial.
Theorem C25_near_round_trip_partial : forall c n t (v : R) u, In n (near_names c) -> In t (near_names c) -> simple u c v n ->
  exists r r' v', unit_convert_to tables0 u t = Ok r /\ un r = t /\ unit_convert_to tables0 r n = Ok r' /\ simple r' c v' n /\ close v' v.
Proof. exact round_near. Qed.
Print Assumptions C25_near_round_trip_partial.
Theorem C25_mile_refuted : exists r r' : unit_obj R, unit_convert_to tables0 (UO Length 1 "m" (eint 1)) "mile" = Ok r /\ uv r = 160934 / 100 /\
  unit_convert_to tables0 r "m" = Ok r' /\ uv r' <> 1.
Proof. exact mile_round. Qed.
Print Assumptions C25_mile_refuted.
Theorem C25_lb_refuted : exists r r' : unit_obj R, unit_convert_to tables0 (UO Mass 1 "lb" (eint 1)) "kg" = Ok r /\
  unit_convert_to tables0 r "lb" = Ok r' /\ uv r' <> 1.
Proof. exact lb_round. Qed.
Print Assumptions C25_lb_refuted.
(** All tabulated names: what comes back, and exactly which pairs are exact. *)
Theorem C25_actual : forall c n t (v : R) u, In n (table_names c) -> In t (table_names c) -> n <> t -> simple u c v n ->
  exists r r', unit_convert_to tables0 u t = Ok r /\ un r = t /\ unit_convert_to tables0 r n = Ok r' /\
    simple r' c (v * (Q2R (out_of n) * Q2R (into n)) * (Q2R (out_of t) * Q2R (into t))) n.
Proof. exact there_and_back. Qed.
Print Assumptions C25_actual.
Theorem C25_exact : forall c n t (v : R) u, In n (table_names c) -> In t (table_names c) -> n <> t -> v <> 0 -> simple u c v n ->
  ((exists r r', unit_convert_to tables0 u t = Ok r /\ unit_convert_to tables0 r n = Ok r' /\ simple r' c v n) <-> In n (round_names c) /\ In t (round_names c)).
Proof. exact round_iff. Qed.
Print Assumptions C25_exact.
Example C25_exact_case : In "mile" (table_names Length) /\ In "ft" (table_names Length) /\ ~ In "ft" (round_names Length) /\ Q2R (out_of "ft") * Q2R (into "ft") = 1.000000032.
Proof. split; [cbn; tauto|]. split; [cbn; tauto|]. split; [intro h; cbn in h; repeat (destruct h as [h|h]; [discriminate|]); exact h|]. change (out_of "ft") with 1%Q. change (into "ft") with ((328084 # 100000) * (3048 # 10000))%Q. rewrite Q2R_mult. q2r. lra. Qed.
Example C25_case : In "atm" (round_names Pressure) /\ In "psi" (round_names Pressure) /\ simple (UO Pressure 3 "atm" (eint 1)) Pressure 3 "atm".
Proof. split; [cbn; tauto|]. split; [cbn; tauto|]. repeat split. Qed.

(** ** C26

    All names of the tables but MPa and mile; psi, ft, in and lb up to 1e-5. *)
Theorem C26_si_ratio_partial : forall c n t (v : R) u, In n (si_names c) -> In t (si_names c) -> simple u c v n ->
  exists r, unit_convert_to tables0 u t = Ok r /\ simple r c (v * (si n / si t)) t.
Proof. exact si_exact. Qed.
Print Assumptions C26_si_ratio_partial.
Theorem C26_near_si_ratio_partial : forall c n t (v : R) u, In n (near_si_names c) -> In t (near_si_names c) -> simple u c v n ->
  exists r v', unit_convert_to tables0 u t = Ok r /\ simple r c v' t /\ close v' (v * (si n / si t)).
Proof. exact si_near. Qed.
Print Assumptions C26_near_si_ratio_partial.
Theorem C26_MPa_refuted : exists r : unit_obj R, unit_convert_to tables0 (UO Pressure 1 "MPa" (eint 1)) "Pa" = Ok r /\
  uv r = 10000000 /\ uv r <> 1 * (si "MPa" / si "Pa").
Proof. exact mpa_refuted. Qed.
Print Assumptions C26_MPa_refuted.
Theorem C26_mile_refuted : exists r : unit_obj R, unit_convert_to tables0 (UO Length 1 "m" (eint 1)) "mile" = Ok r /\
  uv r <> 1 * (si "m" / si "mile").
Proof. exact mile_size_refuted. Qed.
Print Assumptions C26_mile_refuted.
(** All tabulated names: the factor applied, and exactly which pairs have the SI one. *)
Theorem C26_actual : forall c n t (v : R) u, In n (table_names c) -> In t (table_names c) -> n <> t -> simple u c v n ->
  exists r, unit_convert_to tables0 u t = Ok r /\ simple r c (v * (si n / si t) * (Q2R (out_of n) * Q2R (into t))) t.
Proof. exact convert_errors. Qed.
Print Assumptions C26_actual.
Theorem C26_exact : forall c n t (v : R) u, In n (table_names c) -> In t (table_names c) -> n <> t -> v <> 0 -> simple u c v n ->
  ((exists r, unit_convert_to tables0 u t = Ok r /\ simple r c (v * (si n / si t)) t) <-> ~ In n ["MPa"; "psi"; "mile"; "lb"] /\ ~ In t ["MPa"; "psi"; "mile"; "lb"; "ft"; "in"]).
Proof. exact si_iff. Qed.
Print Assumptions C26_exact.
Example C26_actual_case : In "MPa" (table_names Pressure) /\ In "atm" (table_names Pressure) /\ Q2R (out_of "MPa") * Q2R (into "atm") = 10.
Proof. split; [cbn; tauto|]. split; [cbn; tauto|]. change (out_of "MPa") with 10%Q. change (into "atm") with 1%Q. q2r. lra. Qed.
Example C26_case : In "kJ" (si_names Energy) /\ In "BTU" (si_names Energy) /\ si "kJ" / si "BTU" = 1000000 / 1055056.
Proof. split; [cbn; tauto|]. split; [cbn; tauto|]. si_val "kJ" (1000 # 1). si_val "BTU" (1055056 # 1000). q2r. field. Qed.

(** ** C27

    The claim holds for the value 1 (or exponent 1) when one of the names is the
    standard unit of the class.  In general the value itself is raised to the
    power too, and the exponent of the object converted is ignored. *)
Theorem C27_power_partial : forall c n t d q (v : R) e, In n (si_names c) -> In t (si_names c) -> n <> t ->
  standard c = Some n \/ standard c = Some t -> has_char "^" d = false -> py_float d = Ok q -> v = 1 \/ q = qc 1 ->
  exists r, unit_convert_to tables0 (UO c v n e) (t +++ String "^" d) = Ok r /\
    uc r = c /\ uv r = v * Rpower (si n / si t) (QcR q) /\ un r = t /\ ev (ue r) = q.
Proof. exact power_partial. Qed.
Print Assumptions C27_power_partial.
Theorem C27_power_actual : forall c n t d q (v x : R) e, In n (si_names c) -> In t (si_names c) -> n <> t ->
  standard c = Some n \/ standard c = Some t -> has_char "^" d = false -> py_float d = Ok q -> Rpowq (v * (si n / si t)) q = Ok x ->
  unit_convert_to tables0 (UO c v n e) (t +++ String "^" d) = Ok (UO c x t (eflt q)).
Proof. exact power_actual. Qed.
Print Assumptions C27_power_actual.
(** Right exactly for the value 1 or the power 1. *)
Theorem C27_power_exact : forall c n t d q (v : R) e, In n (si_names c) -> In t (si_names c) -> n <> t -> standard c = Some n \/ standard c = Some t ->
  has_char "^" d = false -> py_float d = Ok q -> 0 < v ->
  exists r, unit_convert_to tables0 (UO c v n e) (t +++ String "^" d) = Ok r /\ un r = t /\ ev (ue r) = q /\ uv r = Rpower (v * (si n / si t)) (QcR q) /\
    (uv r = v * Rpower (si n / si t) (QcR q) <-> v = 1 \/ q = qc 1).
Proof. exact power_right. Qed.
Print Assumptions C27_power_exact.
(** Between two units other than the standard one the value is raised twice. *)
Theorem C27_two_steps_actual : forall c n t d q (v y x : R) e, In n (table_names c) -> In t (table_names c) -> n <> t -> n <> standard_name c -> t <> standard_name c ->
  has_char "^" d = false -> py_float d = Ok q ->
  Rpowq (v * (si n / si (standard_name c) * Q2R (out_of n))) q = Ok y -> Rpowq (y * (si (standard_name c) / si t * Q2R (into t))) q = Ok x ->
  unit_convert_to tables0 (UO c v n e) (t +++ String "^" d) = Ok (UO c x t (eflt q)).
Proof. exact power_two_steps. Qed.
Print Assumptions C27_two_steps_actual.
(** 3 km: (3 * 1000)^2 = 9e6, and (9e6 * 100)^2 = 8.1e17, where 9e10 is right. *)
Example C27_two_steps_case : unit_convert_to tables0 (UO Length 3 "km" (eint 2)) "cm^2" = Ok (UO Length 810000000000000000 "cm" (eflt (qc 2))).
Proof.
  apply (C27_two_steps_actual Length "km" "cm" "2" (qc 2) 3 9000000); try (cbn; tauto); try discriminate; try reflexivity; try exact py_float_2.
  - rewrite Rpowq_two. f_equal. unfold out_of. cbn [String.eqb Ascii.eqb Bool.eqb standard_name]. si_val "km" (1000 # 1). si_val "m" 1%Q. q2r. field.
  - rewrite Rpowq_two. f_equal. unfold into. cbn [String.eqb Ascii.eqb Bool.eqb standard_name]. si_val "cm" (1 # 100). si_val "m" 1%Q. q2r. field.
Qed.
Theorem C27_power_refuted : exists (u r : unit_obj R), u = UO Length 5 "m" (eint 2) /\ unit_convert_to tables0 u "cm^2" = Ok r /\
  un r = "cm" /\ ev (ue r) = qc 2 /\ uv r = 250000 /\ uv r <> uv u * Rpower (si "m" / si "cm") (QcR (ev (ue u))).
Proof. exact power_refuted. Qed.
Print Assumptions C27_power_refuted.
Theorem C27_exponent_refuted : exists (u r : unit_obj R), u = UO Length 1 "m" (eint 3) /\ unit_convert_to tables0 u "cm^2" = Ok r /\ ev (ue r) = qc 2.
Proof. exact exponent_refuted. Qed.
Print Assumptions C27_exponent_refuted.
Example C27_case : In "m" (si_names Length) /\ In "cm" (si_names Length) /\ standard Length = Some "m" /\ py_float "2" = Ok (qc 2).
Proof. split; [cbn; tauto|]. split; [cbn; tauto|]. split; [reflexivity|exact py_float_2]. Qed.

(** ** C28

    [convertible_half]: names whose first letter is not wrongly taken for a
    prefix, degrees with exponent 1, no psi or C directly after a derived unit.
    Without the condition on degrees the claim is false, and without those on C and psi. *)
Theorem C28_convert_keeps_partial : forall (a : multi_obj R) s pt pb r, parse_units s = Ok (pt, pb) ->
  Forall convertible_half [mtop a; mbot a; pt; pb] -> multi_convert_to tables0 a s = Ok r ->
  mc r = mc a /\ mtop r = pt /\ mbot r = pb /\ forall w, physical w -> qty w (VMulti r) = qty w (VMulti a).
Proof. exact convert_keeps. Qed.
Print Assumptions C28_convert_keeps_partial.
Theorem C28_degrees_refuted : exists a r : multi_obj R, exists s, adm_multi a /\ multi_convert_to tables0 a s = Ok r /\
  forall w, physical w -> qty w (VMulti r) <> qty w (VMulti a).
Proof. exact ak_refuted. Qed.
Print Assumptions C28_degrees_refuted.
Theorem C28_coulomb_refuted : exists a r : multi_obj R, exists s, adm_multi a /\ multi_convert_to tables0 a s = Ok r /\
  (forall b, mdim (mtop a) (mbot a) b = mdim (mtop r) (mbot r) b) /\ forall w, physical w -> qty w (VMulti r) <> qty w (VMulti a).
Proof. exact coulomb_refuted. Qed.
Print Assumptions C28_coulomb_refuted.
Theorem C28_psi_refuted : exists a r : multi_obj R, exists s, adm_multi a /\ multi_convert_to tables0 a s = Ok r /\
  qty lib_si (VMulti r) <> qty lib_si (VMulti a).
Proof. exact psi_refuted. Qed.
Print Assumptions C28_psi_refuted.
(** The conversion of every MultiUnit to every unit: [seen] is the number a half is
    taken for and [seen_dim] its dimension, [understood l] says that every unit of
    the half is taken for something (ReadSpec.v). *)
Theorem C28_exact : forall (a : multi_obj R) s pt pb r, parse_units s = Ok (pt, pb) ->
  (multi_convert_to tables0 a s = Ok r <->
   understood (mtop a) /\ understood (mbot a) /\ understood pt /\ understood pb /\
   seen (mbot a) <> 0 /\ seen pt <> 0 /\ seen pb <> 0 /\
   (forall c, seen_dim (mtop a) c - seen_dim (mbot a) c = seen_dim pt c - seen_dim pb c)%Qc /\
   r = MO (mc a) (mv a * (seen_size (mtop a) (mbot a) / seen_size pt pb)) pt pb).
Proof. exact convert_exact. Qed.
Print Assumptions C28_exact.
Theorem C28_unparsed : forall (a : multi_obj R) s e, parse_units s = Raise e -> multi_convert_to tables0 a s = Raise e.
Proof. exact convert_unparsed. Qed.
Print Assumptions C28_unparsed.
(** A result is right exactly when both units are misread by the same factor. *)
Theorem C28_right_iff : forall (a : multi_obj R) s pt pb r w, parse_units s = Ok (pt, pb) -> multi_convert_to tables0 a s = Ok r ->
  (qty w (VMulti r) = qty w (VMulti a) <->
   mv a = 0 \/ seen_size (mtop a) (mbot a) / msize w (mtop a) (mbot a) = seen_size pt pb / msize w pt pb).
Proof. exact convert_right. Qed.
Print Assumptions C28_right_iff.
Example C28_exact_case : parse_units "A/K" = Ok (ak_t, ak_b) /\ multi_convert_to tables0 ak "A/K" = Ok (MO MMulti (-5) ak_t ak_b) /\
  understood [BU "A" (eint 1); BU "K" (eint (-1))] /\ seen [BU "A" (eint 1); BU "K" (eint (-1))] = -1 /\
  seen_dim [BU "A" (eint 1); BU "K" (eint (-1))] Temperature = qc (-1) /\
  seen [BU "J" (eint 1); BU "C" (eint 2)] = 2 /\ seen_dim [BU "J" (eint 1); BU "C" (eint 2)] Current = qc 2 /\
  ~ understood [BU "W" (eint 1); BU "W" (eint 1)] /\
  understood [BU "N" (eint 1)] /\ seen_dim [BU "N" (eint 1)] Force = qc 1 /\ seen_dim [BU "Pa" (eint 1)] Force = qc 0.
Proof. exact (conj ak_parse (conj ak_convert seen_degrees)). Qed.
Example C28_case : physical lib_si /\ parse_units "BTU/hr*ft^2*F" = Ok (htc_t, htc_b) /\
  Forall convertible_half [mtop htc; mbot htc; htc_t; htc_b] /\ exists r, multi_convert_to tables0 htc "BTU/hr*ft^2*F" = Ok r.
Proof. exact (conj physical_lib (conj htc_parse (conj htc_convertible htc_converts))). Qed.

(** ** C29, C30: for every conversion table *)
Theorem C29_round_trip : forall tb (a : multi_obj R) s s0 r, parse_units s0 = Ok (mtop a, mbot a) ->
  multi_convert_to tb a s = Ok r ->
  (forall r', multi_convert_to tb r s0 = Ok r' -> r' = a) /\
  (mv r <> 0 -> multi_convert_to tb r s0 = Ok a) /\
  (multi_convert_to tb r s0 = Ok a \/ multi_convert_to tb r s0 = Raise EZeroDivisionError).
Proof. exact round_trip. Qed.
Print Assumptions C29_round_trip.
Example C29_case : multi_convert_to tables0 ak "A/K" = Ok (MO MMulti (-5) ak_t ak_b) /\ parse_units "A/K" = Ok (ak_t, ak_b).
Proof. exact (conj ak_convert ak_parse). Qed.
Theorem C30_path_independent : forall tb (a : multi_obj R) s1 s2 r1 r2,
  multi_convert_to tb a s1 = Ok r1 -> multi_convert_to tb r1 s2 = Ok r2 -> multi_convert_to tb a s2 = Ok r2.
Proof. exact path_independent. Qed.
Print Assumptions C30_path_independent.
Example C30_case : exists r, multi_convert_to tables0 htc "BTU/hr*ft^2*F" = Ok r.
Proof. exact htc_converts. Qed.

(** ** C31

    [known_name]: the names of [dim_table], which include every registered name
    (registered names with a caret are never names of a BaseUnit). *)
Theorem C31_refused : forall (a : multi_obj R) s pt pb b, parse_units s = Ok (pt, pb) ->
  (forall x, In x (mtop a ++ mbot a ++ pt ++ pb) -> known_name (bname x)) ->
  mdim (mtop a) (mbot a) b <> mdim pt pb b -> exists e, multi_convert_to tables0 a s = Raise e.
Proof. exact convert_refuses. Qed.
Print Assumptions C31_refused.
Theorem C31_registered : forall n, dict_get UNIT_REGISTRY n <> None -> has_char "^" n = false -> known_name n.
Proof. exact registered_known. Qed.
Print Assumptions C31_registered.
Example C31_case : known_name "kJ" /\ known_name "psi" /\ mdim [BU "kJ" (eint 1)] nil DLength <> mdim [BU "psi" (eint 1)] nil DLength.
Proof. repeat split; discriminate. Qed.

(** ** C32

    [safe_half] excludes force units, mile, day, mmHg, micro-litres, powers of
    L and acre, degrees with exponent 0, and W, V, cP directly after a derived
    unit; for several of these the claim is false. *)
Theorem C32_convertible_partial : forall (a : multi_obj R) s pt pb, parse_units s = Ok (pt, pb) ->
  Forall safe_half [mtop a; mbot a; pt; pb] -> (forall b, mdim (mtop a) (mbot a) b = mdim pt pb b) ->
  exists r, multi_convert_to tables0 a s = Ok r.
Proof. exact convert_total. Qed.
Print Assumptions C32_convertible_partial.
Theorem C32_exact : forall (a : multi_obj R) s pt pb, parse_units s = Ok (pt, pb) ->
  ((exists r, multi_convert_to tables0 a s = Ok r) <->
   understood (mtop a) /\ understood (mbot a) /\ understood pt /\ understood pb /\
   seen (mbot a) <> 0 /\ seen pt <> 0 /\ seen pb <> 0 /\
   forall c, (seen_dim (mtop a) c - seen_dim (mbot a) c = seen_dim pt c - seen_dim pb c)%Qc).
Proof. exact convert_iff. Qed.
Print Assumptions C32_exact.
Theorem C32_newton_refuted : forall v, (forall b, mdim (mtop (npm v)) (mbot (npm v)) b = mdim pa_t nil b) /\
  parse_units "Pa" = Ok (pa_t, nil) /\ multi_convert_to tables0 (npm v) "Pa" = Raise EUnitConversionError.
Proof. exact npm_refuted. Qed.
Print Assumptions C32_newton_refuted.
Theorem C32_square_watt_refuted : forall v s p, parse_units s = Ok p -> exists e, multi_convert_to tables0 (ww v) s = Raise e.
Proof. exact ww_refuted. Qed.
Print Assumptions C32_square_watt_refuted.
Example C32_case : Forall safe_half [mtop htc; mbot htc; htc_t; htc_b] /\ forall b, mdim (mtop htc) (mbot htc) b = mdim htc_t htc_b b.
Proof. exact (conj htc_safe htc_dims). Qed.

(** ** C33

    Numbers pass; a Unit passes exactly when the name is the required one, but
    its exponent is not looked at; a MultiUnit passes exactly when both halves are
    the required ones, but a mismatch raises AttributeError. *)
Theorem C33_check_unit_partial : forall (u : unit_obj R) s,
  (un u = s -> check_units (VUnit u) s = Ok tt) /\ (un u <> s -> check_units (VUnit u) s = Raise EIncorrectUnits).
Proof. exact check_unit. Qed.
Print Assumptions C33_check_unit_partial.
Theorem C33_check_number : forall (v : R) s, check_units (VNum v) s = Ok tt.
Proof. exact (fun v s => eq_refl). Qed.
Print Assumptions C33_check_number.
Theorem C33_check_multi_partial : forall (m : multi_obj R) s t b, parse_units s = Ok (t, b) ->
  (shape (VMulti m) = shape (VMulti (MO MMulti 0 t b)) -> check_units (VMulti m) s = Ok tt) /\
  (shape (VMulti m) <> shape (VMulti (MO MMulti 0 t b)) -> check_units (VMulti m) s = Raise EAttributeError).
Proof. exact check_multi. Qed.
Print Assumptions C33_check_multi_partial.
Theorem C33_exponent_refuted : exists u : unit_obj R, ev (ue u) = qc 2 /\ un u = "m" /\ check_units (VUnit u) "m" = Ok tt.
Proof. exact check_refuted_exponent. Qed.
Print Assumptions C33_exponent_refuted.
Theorem C33_error_refuted : exists m : multi_obj R, check_units (VMulti m) "m/s" = Raise EAttributeError.
Proof. exact check_refuted_error. Qed.
Print Assumptions C33_error_refuted.
Example C33_case : check_units (VMulti ak) "A*K^-1" = Ok tt.
Proof. vm_compute. reflexivity. Qed.

(** ** C34

    [registers tables0 l] performs the registrations [l] one after the other.
    Conversions between other names are unchanged by every sequence.  The rest
    of the claim holds for the classes whose constructor accepts new names, and
    for non-standard existing units only when the functions are linear. *)
Theorem C34_others_unchanged : forall tb l tb' (u : unit_obj R) target, registers tb l = Ok tb' ->
  (forall n, In n (un u :: target :: split_on "^" target) -> ~ In n (map r_new l)) ->
  unit_convert_to tb' u target = unit_convert_to tb u target.
Proof. exact convert_other. Qed.
Print Assumptions C34_others_unchanged.
Theorem C34_from_standard_partial : forall l1 l2 tb c new s F G (v : R) u,
  registers tables0 (l1 ++ Reg new s (pure F) (pure G) :: l2) = Ok tb -> ~ In new (map r_new l2) ->
  open_class c -> standard c = Some s -> new <> s -> has_char "^" new = false -> mem_str new UNIT_COMPOSITES = false ->
  (forall x, G (F x) = x) -> simple u c v new ->
  exists r r', unit_convert_to tb u s = Ok r /\ simple r c (F v) s /\ unit_convert_to tb r new = Ok r' /\ simple r' c v new.
Proof. exact new_from_standard. Qed.
Print Assumptions C34_from_standard_partial.
Theorem C34_from_existing_partial : forall l1 l2 tb c new ex s (k v : R) u,
  registers tables0 (l1 ++ Reg new ex (pure (fun x => x * k)) (pure (fun x => x / k)) :: l2) = Ok tb ->
  ~ In new (map r_new l2) -> ~ In ex (map r_new (l1 ++ l2)) ->
  open_class c -> In ex (round_names c) -> standard c = Some s -> ex <> s -> new <> s -> new <> ex ->
  has_char "^" new = false -> mem_str new UNIT_COMPOSITES = false -> k <> 0 -> simple u c v new ->
  (exists r r', unit_convert_to tb u s = Ok r /\ unit_convert_to tb r new = Ok r' /\ simple r' c v new) /\
  (exists r, unit_convert_to tb u ex = Ok r /\ simple r c (v * k) ex).
Proof. exact new_from_existing. Qed.
Print Assumptions C34_from_existing_partial.
(** For any functions and any tabulated unit: the from-function of the existing unit is
    applied after the given one, so that what comes out of the standard unit is
    [G v] times the factor, where [G] of the value times the factor is right. *)
Theorem C34_from_existing_actual : forall l1 l2 tb c new ex s F G (v : R) e,
  registers tables0 (l1 ++ Reg new ex (pure F) (pure G) :: l2) = Ok tb ->
  ~ In new (map r_new l2) -> ~ In ex (map r_new (l1 ++ l2)) ->
  open_class c -> In ex (table_names c) -> standard c = Some s -> ex <> s -> new <> s -> new <> ex ->
  has_char "^" new = false -> mem_str new UNIT_COMPOSITES = false ->
  (exists r, unit_convert_to tb (UO c v new e) s = Ok r /\ simple r c (F v * (si ex / si s * Q2R (out_of ex))) s) /\
  (exists r, unit_convert_to tb (UO c v s e) new = Ok r /\ simple r c (G v * (si s / si ex * Q2R (into ex))) new) /\
  (exists r, unit_convert_to tb (UO c v new e) ex = Ok r /\ simple r c (F v * (Q2R (out_of ex) * Q2R (into ex))) ex) /\
  (exists r, unit_convert_to tb (UO c v ex e) new = Ok r /\ simple r c (G (v * (si ex / si s * Q2R (out_of ex))) * (si s / si ex * Q2R (into ex))) new).
Proof. exact new_from_any. Qed.
Print Assumptions C34_from_existing_actual.
Example C34_actual_case : exists tb, registers tables0 ([] ++ Reg "gauge" "ft" (pure (fun x => x + 2)) (pure (fun x => x - 2)) :: []) = Ok tb /\
  In "ft" (table_names Length) /\ open_class Length /\ standard Length = Some "m" /\ has_char "^" "gauge" = false /\ mem_str "gauge" UNIT_COMPOSITES = false.
Proof. eexists. split; [reflexivity|]. split; [cbn; tauto|]. split; [cbn; tauto|]. repeat split. Qed.
Theorem C34_offset_refuted : exists (tb : tables R) (r r' : unit_obj R), registers tables0 offset = Ok tb /\
  unit_convert_to tb (UO Energy 1 "kJx" (eint 1)) "J" = Ok r /\ unit_convert_to tb r "kJx" = Ok r' /\ uv r' <> 1.
Proof. exact offset_refuted. Qed.
Print Assumptions C34_offset_refuted.
Theorem C34_pressure_refuted : exists (tb : tables R), registers tables0 [Reg "torr" "mmHg" (pure (fun x => x)) (pure (fun x => x))] = Ok tb /\
  forall (v : R) e, mk_unit Pressure v "torr" e = Raise ETypeError /\ unit_convert_to tb (UO Pressure v "Pa" e) "torr" = Raise ETypeError.
Proof. exact pressure_refuted. Qed.
Print Assumptions C34_pressure_refuted.
Theorem C34_chain_refuted : forall f g, registers tables0 [Reg "kJx" "kJ" f g; Reg "kJy" "kJx" f g] = Raise EKeyError.
Proof. exact chain_refuted. Qed.
Print Assumptions C34_chain_refuted.
Example C34_case : exists tb, registers tables0 ([Reg "fathom" "ft" (pure (fun x => x * 6)) (pure (fun x => x / 6))] ++
    Reg "furlong" "yd" (pure (fun x => x * 220)) (pure (fun x => x / 220)) :: [Reg "RANKX" "K" (pure (fun x => x + 1)) (pure (fun x => x - 1))]) = Ok tb /\
  In "yd" (round_names Length) /\ open_class Length.
Proof. eexists. split; [reflexivity|]. split; cbn; tauto. Qed.

(** ** C52

    [converts n c v]: a Unit of class [c], name [n] and value [v] can be
    constructed and converted to the standard unit of [c].  It can exactly for
    the names outside [missing_names] (56 of 82). *)
Theorem C52_registry_partial : forall n c (v : R), dict_get UNIT_REGISTRY n = Some c -> (converts n c v <-> ~ In n missing_names).
Proof. exact registry_exact. Qed.
Print Assumptions C52_registry_partial.
Theorem C52_registry_refuted : exists n c, dict_get UNIT_REGISTRY n = Some c /\ forall v : R, ~ converts n c v.
Proof. exact (ex_intro _ "Mm" (ex_intro _ Length (conj eq_refl (fun v h => proj1 (registry_exact "Mm" Length v eq_refl) h (or_introl eq_refl))))). Qed.
Print Assumptions C52_registry_refuted.
Example C52_case : dict_get UNIT_REGISTRY "mmHg" = Some Pressure /\ ~ In "mmHg" missing_names.
Proof. split; [reflexivity|]. intro h. cbn in h. repeat (destruct h as [h|h]; [discriminate|]). destruct h. Qed.

(** The registered names: those of the conversion tables and [other_names]
    (RegistrySpec.v). *)
Theorem C52_names : forall n c, dict_get UNIT_REGISTRY n = Some c <-> In n (table_names c ++ other_names c).
Proof. exact registry_listed. Qed.
Print Assumptions C52_names.
Example C52_names_case : In "mmHg" (table_names Pressure) /\ In "acre" (other_names Area) /\ ~ In "kmol" (table_names Amount ++ other_names Amount).
Proof. split; [cbn; tauto|]. split; [cbn; tauto|]. cbn. intros [h|[]]. discriminate. Qed.
(** An SI prefix on an SI symbol has a class exactly for m, g, J, Pa, N and L. *)
Theorem C52_prefixed : forall p f s c, In (p, f) si_prefixes -> In s si_symbols ->
  (dict_get UNIT_REGISTRY (String p s) = Some c <-> In (s, c) [("m", Length); ("g", Mass); ("J", Energy); ("Pa", Pressure); ("N", Force); ("L", Volume)]).
Proof. exact prefixed_names. Qed.
Print Assumptions C52_prefixed.
Example C52_prefixed_case : dict_get UNIT_REGISTRY "ML" = Some Volume /\ dict_get UNIT_REGISTRY "kmol" = None /\ dict_get UNIT_REGISTRY "ms" = None.
Proof. vm_compute. auto. Qed.

(** ** C102: which error a refused conversion of a MultiUnit raises

    With C28_exact this says what every conversion to a target that can be parsed does. *)
Theorem C102_error : forall (a : multi_obj R) s pt pb e, parse_units s = Ok (pt, pb) ->
  (multi_convert_to tables0 a s = Raise e <-> refused (mtop a) (mbot a) pt pb e).
Proof. exact convert_error. Qed.
Print Assumptions C102_error.
Theorem C102_kinds : forall (a : multi_obj R) s pt pb e, parse_units s = Ok (pt, pb) -> multi_convert_to tables0 a s = Raise e ->
  In e [EIndexError; EKeyError; EValueError; EUnitConversionError; EZeroDivisionError].
Proof. exact convert_kinds. Qed.
Print Assumptions C102_kinds.
Example C102_case :
  first_error [BU "W" (eint 1); BU "W" (eint 1)] nil pas nil = Some EKeyError /\
  first_error [BU "mL" (eint 2)] nil pas nil = Some EValueError /\
  first_error [BU "mL" (eint 2)] nil [BU "furlong" (eint 1)] nil = Some EKeyError /\
  first_error [BU "m" (eint 1)] [BU "K" (eint 0)] [BU "L" (eint 2)] nil = Some EZeroDivisionError /\
  first_error pas nil pas [BU "" (eint 1)] = Some EIndexError /\
  first_error [BU "N" (eint 1)] [BU "m" (eint 2)] pas nil = None /\
  refused [BU "N" (eint 1)] [BU "m" (eint 2)] pas nil EUnitConversionError /\
  refused [BU "m" (eint 1); BU "K" (eint 0)] nil [BU "m" (eint 1); BU "K" (eint 0)] nil EZeroDivisionError.
Proof. exact refuse_cases. Qed.
