(** * Properties of the water tables (C41, C42, C59, C103)

    "tabulated p t x": the table of water_data.py has [x] for property [p] at [t];
    "reported l p": what the answer [l] says about [p] (WaterSpec). *)
From Coq Require Import String List ZArith QArith Bool Reals Lra.
From Coq Require Import Floats.SpecFloat.
From Verif Require Import Py Num UnitsData UnitsStruct Units Formulas WaterData Water WaterSpec WaterFacts Rounding RangeSpec WaterFloat WaterFloatSpec WaterFloatFacts.
Import ListNotations.
Local Open Scope string_scope.
Local Open Scope list_scope.
Local Open Scope R_scope.

(** ** C41

    Full statement: with the whole table in place of the range 275 K to 1345 K and
    without the exception of the boiling row.  Both are false (refuted below). *)
Theorem C41_row_partial : forall p t x, In p WATER_PROPERTY_KEYS -> tabulated p t x -> t <= 1345 -> t <> boiling ->
  exists l, get_water_properties t = Ok l /\ hd_error l = Some (WN t) /\ reported l p = Some x.
Proof. exact at_row. Qed.
Print Assumptions C41_row_partial.
Theorem C41_between : forall p T, numeric p -> 275 <= T < 1345 ->
  exists l y t1 t2 x1 x2, get_water_properties T = Ok l /\ reported l p = Some (WN y) /\
    neighbours t1 t2 /\ t1 <= T < t2 /\ tabulated p t1 (WN x1) /\ tabulated p t2 (WN x2) /\
    y = x1 + (T - t1) / (t2 - t1) * (x2 - x1) /\ Rmin x1 x2 <= y <= Rmax x1 x2.
Proof. exact between. Qed.
Print Assumptions C41_between.
Theorem C41_continuous : forall p T T', numeric p -> 275 <= T <= 1345 -> 275 <= T' <= 1345 ->
  exists l l' y y', get_water_properties T = Ok l /\ get_water_properties T' = Ok l' /\
    reported l p = Some (WN y) /\ reported l' p = Some (WN y') /\ Rabs (y - y') <= 300 * Rabs (T - T').
Proof. exact continuous. Qed.
Print Assumptions C41_continuous.
Theorem C41_outside : forall T, T < 275 \/ 1345 < T -> get_water_properties T = Raise EOutOfRangeProperty.
Proof. exact water_out. Qed.
Print Assumptions C41_outside.
Theorem C41_range_refuted : exists t x, tabulated k_cp t (WN x) /\ get_water_properties t = Raise EOutOfRangeProperty.
Proof. exact range_refuted. Qed.
Print Assumptions C41_range_refuted.
Theorem C41_boiling_row_refuted : exists x l y, tabulated k_rho boiling (WN x) /\ get_water_properties boiling = Ok l /\
  reported l k_rho = Some (WN y) /\ y > 100 * x.
Proof. exact boiling_row_refuted. Qed.
Print Assumptions C41_boiling_row_refuted.
Example C41_case : numeric k_mu /\ tabulated k_cp 275 (WN (Q2R (8427 # 2000))).
Proof. split; [split; [vm_compute; tauto|discriminate]|]. apply (item_tab 275 k_cp (CN (8427 # 2000))). vm_compute. reflexivity. Qed.

(** ** C42

    Full statement: without the excluded temperatures. *)
Theorem C42_phase_partial : forall T, 275 <= T <= 1345 -> T <= 365 \/ boiling < T -> exists l, get_water_properties T = Ok l /\
  (T < boiling -> reported l "Phase" = Some (WT "liquid")) /\ (boiling < T -> reported l "Phase" = Some (WT "vapor")).
Proof. exact phase_partial. Qed.
Print Assumptions C42_phase_partial.
Theorem C42_phase_refuted : forall T, 365 < T < boiling -> exists l, get_water_properties T = Ok l /\ reported l "Phase" = Some (WT "vapor").
Proof. exact phase_refuted. Qed.
Print Assumptions C42_phase_refuted.
Example C42_case : 365 < 370 < boiling.
Proof. unfold boiling. lra. Qed.

(** ** C59

    Full statement: the object's temperature and pressure are those asked for. *)
Theorem C59_rest_partial : forall T, 275 <= T <= 1345 -> exists w l, get_water T = Ok w /\ get_water_properties T = Ok l /\
  reported l "Phase" = Some (WT (w_phase w)) /\
  Forall (fun x => let '(p, c, s, v) := x in exists y, reported l p = Some (WN y) /\ rmap VMulti (mk_multi (MSub c) y s) = Ok v)
    [(k_cp, "Cp", "J/g*K", w_cp w); (k_cv, "Cv", "J/g*K", w_cv w); (k_rho, "Density", "kg/m^3", w_density w); (k_h, "Enthalpy", "kJ/kg", w_enthalpy w);
     (k_s, "Entropy", "J/g*K", w_entropy w); (k_u, "InternalEnergy", "kJ/kg", w_internal_energy w); (k_k, "ThermalConductivity", "W/m*K", w_conductivity w);
     (k_mu, "DynamicViscosity", "uPa*s", w_viscosity w); (k_v, "SpecificVolume", "m^3/kg", w_volume w)].
Proof. exact water_rest. Qed.
Print Assumptions C59_rest_partial.
Example C59_case : 275 <= 300 <= 1345 /\ tabulated k_cp 275 (WN (Q2R (8427 # 2000))).
Proof. split; [lra|]. apply (item_tab 275 k_cp (CN (8427 # 2000))). vm_compute. reflexivity. Qed.
(** Temperature and pressure are exchanged, at every temperature. *)
Theorem C59_exchanged_refuted : forall T, 275 <= T <= 1345 -> exists w l, get_water T = Ok w /\ get_water_properties T = Ok l /\
  w_pressure w = VUnit (UO Pressure T "MPa" (eint 1)) /\
  (exists y, reported l k_p = Some (WN y) /\ w_temperature w = VUnit (UO Temperature y "K" (eint 1))).
Proof. exact water_object. Qed.
Print Assumptions C59_exchanged_refuted.
Theorem C59_label_refuted : exists w, get_water 300 = Ok w /\ exists x, w_temperature w = VUnit (UO Temperature x "K" (eint 1)) /\ x < 1.
Proof. exact water_label_refuted. Qed.
Print Assumptions C59_label_refuted.

(** ** C103

    The same function in binary64: "f_water_properties".  A text is the same in both
    answers, a number of the second is within 2^-39 of its size of that of the first
    (WaterFloatSpec). *)
Theorem C103_rows : forall T, finite64 T -> 275 <= SFR T <= 1345 -> rows_around (SFR T) (fst (f_rows T)) (snd (f_rows T)).
Proof. exact rows_right. Qed.
Print Assumptions C103_rows.
Theorem C103_close : forall T, finite64 T -> 275 <= SFR T <= 1345 ->
  exists l l', get_water_properties (SFR T) = Ok l /\ f_water_properties T = Ok l' /\ Forall2 (close_to (/ 2 ^ 39)) l l'.
Proof. exact water_float. Qed.
Print Assumptions C103_close.
Theorem C103_outside : forall T, T = S754_nan \/ T = S754_infinity false \/ T = S754_infinity true \/ (finite64 T /\ (SFR T < 275 \/ 1345 < SFR T)) ->
  f_water_properties T = Raise EOutOfRangeProperty.
Proof. exact water_float_out. Qed.
Print Assumptions C103_outside.
(** The last float before 285 K still uses the row of 275 K. *)
Example C103_case : let T := S754_finite false 5013773022658559 (-44) in
  finite64 T /\ 275 <= SFR T <= 1345 /\ 285 - / 1000000000000 < SFR T < 285 /\ f_rows T = (275%Z, 285%Z) /\
  exists l, f_water_properties T = Ok l /\ nth_error l 8 = Some (FT "liquid").
Proof.
  assert (e : powerRZ 2 (-44) = / 17592186044416) by (change (powerRZ 2 (-44)) with (/ IZR 2 ^ 44); rewrite pow_IZR; reflexivity). cbv zeta. split; [reflexivity|]. split; [cbn [SFR]; rewrite e; split; lra|]. split; [cbn [SFR]; rewrite e; split; lra|].
  split; [vm_compute; reflexivity|]. eexists. split; vm_compute; reflexivity.
Qed.
