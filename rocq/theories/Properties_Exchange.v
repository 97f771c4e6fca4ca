(** * Properties of diffusion coefficients, phase change, shell side, reactors and
      evaporation (C71-C73, C75) *)
From Coq Require Import String Ascii List ZArith QArith Qcanon Bool Reals Lia Lra.
From Verif Require Import Py Num UnitsData UnitsStruct Units Spec ConvSpec Solve Formulas Correlations FormulaSpec TransferSpec ExchangeSpec
  DiffusivityFacts ExchangeFacts ReactorFacts.
Import ListNotations.
Local Open Scope string_scope.
Local Open Scope list_scope.
Local Open Scope R_scope.


(** ** C71: diffusion coefficients *)

Theorem C71_stokes_einstein : forall u (T mu Ra : R) vT vmu vR, In u ["kg/m*s"; "Pa*s"] -> simple Temperature T "K" = Ok vT -> multi "DynamicViscosity" mu u = Ok vmu -> simple Length Ra "m" = Ok vR ->
  mu <> 0 -> Ra <> 0 ->
  exists r, stokes_einstein vT vmu vR = Ok r /\ value r = 1.380649 / 10 ^ 23 * T / (6 * PI * mu * Ra) /\ denotes r (1.380649 / 10 ^ 23 * T / (6 * PI * mu * Ra)) "m^2/s".
Proof. exact stokes_einstein_si. Qed.
Print Assumptions C71_stokes_einstein.

(** Ions, with molar conductivities in A*m^2/V*mol or A*cm^2/V*mol. *)
Theorem C71_ionic : forall (R_ T np nm lp lm : R) vR vT vp vm, constant R_ "J/mol*K" = Ok vR -> simple Temperature T "K" = Ok vT -> constant lp "A*m^2/V*mol" = Ok vp -> constant lm "A*m^2/V*mol" = Ok vm ->
  np <> 0 -> nm <> 0 -> 0 < lp -> 0 < lm ->
  exists r, ionic_diffusion_coefficient vR vT (VNum np) (VNum nm) vp vm = Ok r /\ value r = io_value R_ T np nm lp lm /\ denotes r (io_value R_ T np nm lp lm) "m^2/s".
Proof. exact ionic_si. Qed.
Print Assumptions C71_ionic.

Theorem C71_ionic_cm : forall (R_ T np nm lp lm : R) vR vT vp vm, constant R_ "J/mol*K" = Ok vR -> simple Temperature T "K" = Ok vT -> constant lp "A*cm^2/V*mol" = Ok vp -> constant lm "A*cm^2/V*mol" = Ok vm ->
  np <> 0 -> nm <> 0 -> 0 < lp -> 0 < lm ->
  exists r, ionic_diffusion_coefficient vR vT (VNum np) (VNum nm) vp vm = Ok r /\ denotes r (io_value R_ T np nm (lp / 10000) (lm / 10000)) "m^2/s".
Proof. exact ionic_cm. Qed.
Print Assumptions C71_ionic_cm.

(** In the unit the docstring gives, A/cm^2*V*mol, the result is no diffusion coefficient. *)
Theorem C71_ionic_docstring : forall (R_ T np nm lp lm : R) vR vT vp vm, constant R_ "J/mol*K" = Ok vR -> simple Temperature T "K" = Ok vT -> constant lp "A/cm^2*V*mol" = Ok vp -> constant lm "A/cm^2*V*mol" = Ok vm ->
  np <> 0 -> nm <> 0 -> 0 < lp -> 0 < lm ->
  exists r, ionic_diffusion_coefficient vR vT (VNum np) (VNum nm) vp vm = Ok r /\ denotes r (io_value R_ T np nm (10000 * lp) (10000 * lm)) "m^-2*s^-1".
Proof. exact ionic_docstring. Qed.
Print Assumptions C71_ionic_docstring.

Theorem C71_ionic_docstring_refuted : exists vR vT vp vm r, constant 8.314 "J/mol*K" = Ok vR /\ simple Temperature 298 "K" = Ok vT /\ constant 50 "A/cm^2*V*mol" = Ok vp /\ constant 76 "A/cm^2*V*mol" = Ok vm /\
  ionic_diffusion_coefficient vR vT (VNum 1) (VNum 1) vp vm = Ok r /\ forall x, ~ denotes r x "m^2/s".
Proof. exact ionic_docstring_ex. Qed.
Print Assumptions C71_ionic_docstring_refuted.

(** Fuller: right when the weights and volumes are all objects, or all six are numbers. *)
Theorem C71_fuller : forall bt bp bm bv (T P Ma Mb Va Vb : R) vT vP vMa vMb vVa vVb, fuller_call bt bp bm bv T P Ma Mb Va Vb vT vP vMa vMb vVa vVb -> (bm && bv = true \/ bt || bp || bm || bv = false) ->
  exists w, fullers vT vP vMa vMb vVa vVb = Ok w /\ in_cm2s (VNum (ful_value T P Ma Mb Va Vb)) w.
Proof. exact fuller_right. Qed.
Print Assumptions C71_fuller.

(** Otherwise the number is divided by 10000 without having been multiplied. *)
Theorem C71_fuller_mixed : forall bt bp bm bv (T P Ma Mb Va Vb : R) vT vP vMa vMb vVa vVb, fuller_call bt bp bm bv T P Ma Mb Va Vb vT vP vMa vMb vVa vVb -> bm && bv = false -> bp || bm || bv = true -> bt || bm || bv = true ->
  exists w, fullers vT vP vMa vMb vVa vVb = Ok w /\ in_cm2s (VNum (ful_value T P Ma Mb Va Vb / 10000)) w.
Proof. exact fuller_wrong. Qed.
Print Assumptions C71_fuller_mixed.

Theorem C71_fuller_mixed_refuted : exists vT vP vMa vMb vVa vVb w w' x, simple Temperature 300 "K" = Ok vT /\ simple Pressure 1 "atm" = Ok vP /\
  multi "MolecularWeight" 2 "g/mol" = Ok vMa /\ multi "MolecularWeight" 29 "g/mol" = Ok vMb /\ constant 7 "cm^3/mol" = Ok vVa /\ constant 20 "cm^3/mol" = Ok vVb /\
  fullers vT vP vMa vMb vVa vVb = Ok w /\ in_cm2s (VNum x) w /\ fullers vT vP vMa vMb (VNum 7) (VNum 20) = Ok w' /\ in_cm2s (VNum (x / 10000)) w' /\ x <> 0.
Proof. exact fuller_mixed_ex. Qed.
Print Assumptions C71_fuller_mixed_refuted.

(** With only the temperature an object, the coefficient holds a Temperature; with only
    the pressure, the call raises. *)
Theorem C71_fuller_temperature : forall bt bp bm bv (T P Ma Mb Va Vb : R) vT vP vMa vMb vVa vVb, fuller_call bt bp bm bv T P Ma Mb Va Vb vT vP vMa vMb vVa vVb -> bt = true -> bp || bm || bv = false ->
  exists w c e, fullers vT vP vMa vMb vVa vVb = Ok w /\ in_cm2s (VUnit (UO c (ful_value T P Ma Mb Va Vb) "K" e)) w.
Proof. exact fuller_temperature. Qed.
Print Assumptions C71_fuller_temperature.

Theorem C71_fuller_pressure : forall bt bp bm bv (T P Ma Mb Va Vb : R) vT vP vMa vMb vVa vVb, fuller_call bt bp bm bv T P Ma Mb Va Vb vT vP vMa vMb vVa vVb -> bp = true -> bt || bm || bv = false ->
  fullers vT vP vMa vMb vVa vVb = Raise ETypeError.
Proof. exact fuller_pressure. Qed.
Print Assumptions C71_fuller_pressure.

Theorem C71_fuller_pressure_refuted : exists vP, simple Pressure 1 "atm" = Ok vP /\ fullers (VNum 300) vP (VNum 2) (VNum 29) (VNum 7) (VNum 20) = Raise ETypeError.
Proof. exact fuller_pressure_ex. Qed.
Print Assumptions C71_fuller_pressure_refuted.

(** Wilke and Chang: the viscosity in cP. *)
Theorem C71_wilke : forall (T th M mu V : R), 0 < th -> 0 < M -> mu <> 0 -> 0 < V ->
  exists w, wilke_chang (VNum T) (VNum th) (VNum M) (VNum mu) (VNum V) = Ok w /\ in_cm2s (VNum (wc_value T th M mu V)) w.
Proof. exact wilke_numbers. Qed.
Print Assumptions C71_wilke.

Theorem C71_wilke_centipoise : forall bt bm (T th M mu V : R) vT vM vmu, either bt vT T (simple Temperature T "F") -> either bm vM M (multi "MolecularWeight" M "g/mol") -> multi "DynamicViscosity" mu "cP" = Ok vmu ->
  0 < th -> 0 < M -> mu <> 0 -> 0 < V ->
  exists w, wilke_chang vT (VNum th) vM vmu (VNum V) = Ok w /\ in_cm2s (VNum (wc_value T th M mu V)) w.
Proof. exact wilke_centipoise. Qed.
Print Assumptions C71_wilke_centipoise.

(** A viscosity in g/cm*s is a number of poise or not, depending on the molecular weight. *)
Theorem C71_wilke_poise : forall bt bm (T th M mu V : R) vT vM vmu, either bt vT T (simple Temperature T "F") -> either bm vM M (multi "MolecularWeight" M "g/mol") -> multi "DynamicViscosity" mu "g/cm*s" = Ok vmu ->
  0 < th -> 0 < M -> mu <> 0 -> 0 < V ->
  exists w, wilke_chang vT (VNum th) vM vmu (VNum V) = Ok w /\ in_cm2s (VNum (if bm then wc_value T th M mu V / 100 else wc_value T th M mu V)) w.
Proof. exact wilke_poise. Qed.
Print Assumptions C71_wilke_poise.

Theorem C71_wilke_poise_refuted : exists vM vmu w w' x, multi "MolecularWeight" 18 "g/mol" = Ok vM /\ multi "DynamicViscosity" 1 "g/cm*s" = Ok vmu /\
  wilke_chang (VNum 300) (VNum 2.6) vM vmu (VNum 40) = Ok w /\ in_cm2s (VNum (x / 100)) w /\
  wilke_chang (VNum 300) (VNum 2.6) (VNum 18) vmu (VNum 40) = Ok w' /\ in_cm2s (VNum x) w' /\ x <> 0.
Proof. exact wilke_poise_ex. Qed.
Print Assumptions C71_wilke_poise_refuted.

Theorem C71_wilke_temperature : forall (T th M mu V : R) vT, simple Temperature T "F" = Ok vT -> 0 < th -> 0 < M -> mu <> 0 -> 0 < V ->
  exists w c e, wilke_chang vT (VNum th) (VNum M) (VNum mu) (VNum V) = Ok w /\ in_cm2s (VUnit (UO c (wc_value T th M mu V) "F" e)) w.
Proof. exact wilke_temperature. Qed.
Print Assumptions C71_wilke_temperature.

Example C71_case : exists vM vmu vT, multi "MolecularWeight" 18 "g/mol" = Ok vM /\ multi "DynamicViscosity" 1 "cP" = Ok vmu /\ simple Temperature 77 "F" = Ok vT /\
  either true vT 77 (simple Temperature 77 "F") /\ either true vM 18 (multi "MolecularWeight" 18 "g/mol").
Proof. repeat eexists; vm_compute; reflexivity. Qed.
Example C71_fuller_case : exists vT vP vMa vMb vVa vVb, fuller_call true true true true 300 1 2 29 7 20 vT vP vMa vMb vVa vVb.
Proof. unfold fuller_call, either. repeat eexists; first [reflexivity|lra]. Qed.



(** ** C72: condensation and boiling *)

Theorem C72_condensation : forall M l t e th uk r_ (k rho g h n T2 T1 d mu : R) vk vrho vg vh v2 v1 vd vmu, In M masses -> In l lengths -> In t times -> In e energies -> In th temperatures ->
  (uk = e +++ "/" +++ t +++ "*" +++ l +++ "*" +++ th /\ r_ = e +++ "/" +++ t +++ "*" +++ l +++ "^2*" +++ th \/ (e = "J" /\ t = "s" /\ uk = "W/" +++ l +++ "*" +++ th /\ r_ = "W/" +++ l +++ "^2*" +++ th)) ->
  multi "ThermalConductivity" k uk = Ok vk -> multi "Density" rho (M +++ "/" +++ l +++ "^3") = Ok vrho -> multi "Acceleration" g (l +++ "/" +++ t +++ "^2") = Ok vg ->
  multi "Hvap" h (e +++ "/" +++ M) = Ok vh -> simple Temperature T2 th = Ok v2 -> simple Temperature T1 th = Ok v1 -> simple Length d l = Ok vd ->
  multi "DynamicViscosity" mu (M +++ "/" +++ l +++ "*" +++ t) = Ok vmu ->
  0 < k -> 0 < rho -> 0 < g -> 0 < h -> 0 < n -> T1 < T2 -> 0 < d -> 0 < mu ->
  exists r, condensation_transfer_coefficient vk vrho vg vh (VNum n) v2 v1 vd vmu = Ok r /\ value r = co_value k rho g h n T2 T1 d mu /\ denotes r (co_value k rho g h n T2 T1 d mu) r_.
Proof. exact condensation. Qed.
Print Assumptions C72_condensation.

(** Sixteen times as many tubes halve the coefficient. *)
Theorem C72_tubes : forall k rho g h n T2 T1 d mu, 0 < k -> 0 < rho -> 0 < g -> 0 < h -> 0 < n -> T1 < T2 -> 0 < d -> 0 < mu ->
  co_value k rho g h (16 * n) T2 T1 d mu = co_value k rho g h n T2 T1 d mu / 2.
Proof. exact co_sixteen. Qed.
Print Assumptions C72_tubes.

Theorem C72_boiling : forall M l t e (h rv rl st g : R) vh vv vl vs_ vg, In M masses -> In l lengths -> In t times -> In e energies ->
  multi "Hvap" h (e +++ "/" +++ M) = Ok vh -> multi "Density" rv (M +++ "/" +++ l +++ "^3") = Ok vv -> multi "Density" rl (M +++ "/" +++ l +++ "^3") = Ok vl ->
  constant st (M +++ "/" +++ t +++ "^2") = Ok vs_ -> multi "Acceleration" g (l +++ "/" +++ t +++ "^2") = Ok vg -> 0 < rv -> rv < rl -> 0 < st -> 0 < g ->
  exists r, flux_max_boiling tables0 vh vv vl vs_ vg = Ok r /\ value r = bo_value h rv rl st g /\ denotes r (bo_value h rv rl st g) (e +++ "/" +++ t +++ "*" +++ l +++ "^2").
Proof. exact boiling. Qed.
Print Assumptions C72_boiling.

(** The conversion to W/m^2 is computed and thrown away. *)
Theorem C72_boiling_unit_refuted : exists vh vv vl vs_ vg m, multi "Hvap" 1 "BTU/lb" = Ok vh /\ multi "Density" 1 "lb/ft^3" = Ok vv /\ multi "Density" 2 "lb/ft^3" = Ok vl /\
  constant 1 "lb/s^2" = Ok vs_ /\ multi "Acceleration" 1 "ft/s^2" = Ok vg /\ flux_max_boiling tables0 vh vv vl vs_ vg = Ok (VMulti m) /\ In "BTU" (map bname (mtop m)).
Proof. exact boiling_cast. Qed.
Print Assumptions C72_boiling_unit_refuted.

(** With a surface tension in N/m, as documented, the call raises. *)
Theorem C72_boiling_newton : forall (h rv rl st g : R) vh vv vl vs_ vg, multi "Hvap" h "J/kg" = Ok vh -> multi "Density" rv "kg/m^3" = Ok vv -> multi "Density" rl "kg/m^3" = Ok vl ->
  constant st "N/m" = Ok vs_ -> multi "Acceleration" g "m/s^2" = Ok vg -> 0 < rv -> rv < rl -> 0 < st -> 0 < g ->
  flux_max_boiling tables0 vh vv vl vs_ vg = Raise EUnitConversionError.
Proof. exact boiling_newton. Qed.
Print Assumptions C72_boiling_newton.

Theorem C72_boiling_newton_refuted : exists vh vv vl vs_ vg e, multi "Hvap" 3000 "J/kg" = Ok vh /\ multi "Density" 1 "kg/m^3" = Ok vv /\ multi "Density" 2 "kg/m^3" = Ok vl /\
  constant 52 "N/m" = Ok vs_ /\ multi "Acceleration" 9.81 "m/s^2" = Ok vg /\ flux_max_boiling tables0 vh vv vl vs_ vg = Raise e.
Proof. exact boiling_newton_ex. Qed.
Print Assumptions C72_boiling_newton_refuted.

Example C72_case : In "kg" masses /\ In "m" lengths /\ In "s" times /\ In "J" energies /\ In "K" temperatures /\
  exists vk vh vs, multi "ThermalConductivity" 0.6 "W/m*K" = Ok vk /\ multi "Hvap" 2000000 "J/kg" = Ok vh /\ constant 0.06 "kg/s^2" = Ok vs.
Proof. repeat (split; [left; reflexivity|]). repeat eexists; reflexivity. Qed.



(** ** C73: the shell side of an exchanger *)

(** The two areas are Lengths: their exponents are lost. *)
Theorem C73_baffle_area : forall l (fb Ds Nb Do : R) vs vo, In l lengths -> simple Length Ds l = Ok vs -> simple Length Do l = Ok vo ->
  exists r, Sb_calc (VNum fb) vs (VNum Nb) vo = Ok r /\ is_simple Length (fb * (PI * Ds ^ 2 / 4) - Nb * (PI * Do ^ 2 / 4)) l r.
Proof. exact baffle_area. Qed.
Print Assumptions C73_baffle_area.

Theorem C73_cross_area : forall l (P Ds Do p : R) vP vs vo vp, In l lengths -> simple Length P l = Ok vP -> simple Length Ds l = Ok vs -> simple Length Do l = Ok vo -> simple Length p l = Ok vp -> p <> 0 ->
  exists r, Sc_calc vP vs vo vp = Ok r /\ is_simple Length (P * Ds * (1 - Do / p)) l r.
Proof. exact cross_area. Qed.
Print Assumptions C73_cross_area.

Theorem C73_area_refuted : exists vs vo r, simple Length 1 "m" = Ok vs /\ simple Length 0.01 "m" = Ok vo /\ Sb_calc (VNum 0.2) vs (VNum 10) vo = Ok r /\ forall x, ~ denotes r x "m^2".
Proof. exact baffle_area_ex. Qed.
Print Assumptions C73_area_refuted.

(** Given areas that are areas, the mass velocity and the coefficient are right. *)
Theorem C73_mass_velocity : forall M l t (m Sb Sc : R) vm vb vc, In M masses -> In l lengths -> In t times -> constant m (M +++ "/" +++ t) = Ok vm -> simple Area Sb (l +++ "^2") = Ok vb -> simple Area Sc (l +++ "^2") = Ok vc ->
  0 < m -> 0 < Sb -> 0 < Sc -> exists r, Ge_calc vm vb vc = Ok r /\ value r = m / sqrt (Sb * Sc) /\ denotes r (m / sqrt (Sb * Sc)) (M +++ "/" +++ t +++ "*" +++ l +++ "^2").
Proof. exact mass_velocity. Qed.
Print Assumptions C73_mass_velocity.

Theorem C73_coefficient : forall M l t p th (Do Ge mu Pr k psi : R) vo vg vmu vk, In M masses -> In l lengths -> In t times -> In p powers -> In th temperatures ->
  simple Length Do l = Ok vo -> constant Ge (M +++ "/" +++ t +++ "*" +++ l +++ "^2") = Ok vg -> multi "DynamicViscosity" mu (M +++ "/" +++ l +++ "*" +++ t) = Ok vmu ->
  multi "ThermalConductivity" k (p +++ l +++ "*" +++ th) = Ok vk -> 0 < Do -> 0 < Ge -> 0 < mu -> 0 < Pr ->
  exists r, htc_shell vo vg vmu (VNum Pr) vk (VNum psi) = Ok r /\ value r = hs_value Do Ge mu Pr k psi /\ denotes r (hs_value Do Ge mu Pr k psi) (p +++ l +++ "^2*" +++ th).
Proof. exact shell_coefficient. Qed.
Print Assumptions C73_coefficient.

(** The whole calculation has the right number with the unit of a conductivity. *)
Theorem C73_full : forall M l t e th (fb Ds Do Nb P p m mu cp k : R) vDs vDo vP vp vm vmu vcp vk, In M masses -> In l lengths -> In t times -> In e energies -> In th temperatures ->
  simple Length Ds l = Ok vDs -> simple Length Do l = Ok vDo -> simple Length P l = Ok vP -> simple Length p l = Ok vp -> constant m (M +++ "/" +++ t) = Ok vm ->
  multi "DynamicViscosity" mu (M +++ "/" +++ l +++ "*" +++ t) = Ok vmu -> multi "HeatCapacity" cp (e +++ "/" +++ M +++ "*" +++ th) = Ok vcp ->
  multi "ThermalConductivity" k (e +++ "/" +++ t +++ "*" +++ l +++ "*" +++ th) = Ok vk ->
  let Sb := fb * (PI * Ds ^ 2 / 4) - Nb * (PI * Do ^ 2 / 4) in let Sc := P * Ds * (1 - Do / p) in
  0 < Sb -> 0 < Sc -> p <> 0 -> 0 < Do -> 0 < m -> 0 < mu -> 0 < cp -> 0 < k ->
  exists r, shell_htc_full (VNum fb) vDs vDo (VNum Nb) vP vp vm vmu vcp vk = Ok r /\ value r = hs_value Do (m / sqrt (Sb * Sc)) mu (mu * cp / k) k 1 /\
    denotes r (hs_value Do (m / sqrt (Sb * Sc)) mu (mu * cp / k) k 1) (e +++ "/" +++ t +++ "*" +++ l +++ "*" +++ th).
Proof. exact shell_full. Qed.
Print Assumptions C73_full.

Theorem C73_full_refuted : exists vDs vDo vP vp vm vmu vcp vk r, simple Length 1 "m" = Ok vDs /\ simple Length 0.01 "m" = Ok vDo /\ simple Length 0.3 "m" = Ok vP /\ simple Length 0.02 "m" = Ok vp /\
  constant 5 "kg/s" = Ok vm /\ multi "DynamicViscosity" 0.001 "kg/m*s" = Ok vmu /\ multi "HeatCapacity" 4000 "J/kg*K" = Ok vcp /\ multi "ThermalConductivity" 0.6 "J/s*m*K" = Ok vk /\
  shell_htc_full (VNum 1) vDs vDo (VNum 10) vP vp vm vmu vcp vk = Ok r /\ forall x, ~ denotes r x "J/s*m^2*K".
Proof. exact shell_full_ex. Qed.
Print Assumptions C73_full_refuted.

Theorem C73_z_factor : forall th (h0 h1 c0 c1 : R) v0 v1 w0 w1, In th temperatures -> simple Temperature h0 th = Ok v0 -> simple Temperature h1 th = Ok v1 -> simple Temperature c0 th = Ok w0 -> simple Temperature c1 th = Ok w1 -> c1 <> c0 ->
  z_factor v0 v1 w0 w1 = Ok (VNum ((h0 - h1) / (c1 - c0))).
Proof. exact z_number. Qed.
Print Assumptions C73_z_factor.

Theorem C73_nh_factor : forall th (h0 c0 c1 : R) v0 w0 w1, In th temperatures -> simple Temperature h0 th = Ok v0 -> simple Temperature c0 th = Ok w0 -> simple Temperature c1 th = Ok w1 -> h0 <> c0 ->
  nh_factor v0 w0 w1 = Ok (VNum ((c1 - c0) / (h0 - c0))).
Proof. exact nh_number. Qed.
Print Assumptions C73_nh_factor.

Theorem C73_equivalent_diameter : forall l (A P : R) vA vP, In l lengths -> simple Area A (l +++ "^2") = Ok vA -> simple Length P l = Ok vP -> P <> 0 ->
  exists o, equivalent_diameter vA vP = Ok o /\ value o = 4 * (A / P) /\ denotes o (4 * (A / P)) l.
Proof. exact equivalent. Qed.
Print Assumptions C73_equivalent_diameter.

Example C73_case : In "lb" masses /\ In "ft" lengths /\ In "hr" times /\ In "BTU/hr*" powers /\ In "F" temperatures /\
  exists vo vg vA, simple Length 0.1 "ft" = Ok vo /\ constant 300 "lb/hr*ft^2" = Ok vg /\ simple Area 2 "ft^2" = Ok vA.
Proof. repeat (split; [cbn; tauto|]). repeat eexists; reflexivity. Qed.
Example C73_full_case : 0 < 1 * (PI * 1 ^ 2 / 4) - 10 * (PI * 0.01 ^ 2 / 4) /\ 0 < 0.3 * 1 * (1 - 0.01 / 0.02).
Proof. pose proof PI_RGT_0. split; lra. Qed.



(** ** C75: stirred tanks and evaporation *)

Theorem C75_cstr : forall n t v (F0 F1 r : R) v0 v1 vr, In n substances -> In t times -> In v ["L"; "m^3"; "ft^3"] ->
  multi "MolarFlowRate" F0 (n +++ "/" +++ t) = Ok v0 -> multi "MolarFlowRate" F1 (n +++ "/" +++ t) = Ok v1 -> multi "ReactionRate" r (n +++ "/" +++ v +++ "*" +++ t) = Ok vr -> r <> 0 ->
  exists o, cstr_volume v0 v1 vr = Ok o /\ value o = (F0 - F1) / - r /\ denotes o ((F0 - F1) / - r) v.
Proof. exact cstr. Qed.
Print Assumptions C75_cstr.

Theorem C75_K : forall (M : R) vM, multi "MolecularWeight" M "g/mol" = Ok vM -> 0 < M ->
  exists o, K_from_standard vM = Ok o /\ value o = 0.83 * Rpower (18 / M) (1 / 3) /\ denotes o (0.83 * Rpower (18 / M) (1 / 3)) "cm/s".
Proof. exact K_standard. Qed.
Print Assumptions C75_K.

(** The docstring: K from K_from_standard and R from get_gas_constant. *)
Theorem C75_evaporation : forall (M A P T : R) vM vA vP vT, multi "MolecularWeight" M "g/mol" = Ok vM -> simple Area A "m^2" = Ok vA -> simple Pressure P "Pa" = Ok vP -> simple Temperature T "K" = Ok vT ->
  0 < M -> T <> 0 ->
  exists o, (let* K := K_from_standard vM in let* Rg := get_gas_constant "K" "m^3" "Pa" false in Qm_evaporation vM K vA vP Rg vT) = Ok o /\
    value o = M * (0.83 * Rpower (18 / M) (1 / 3) / 100) * A * P / (8.314 * T) /\
    denotes o (M * (0.83 * Rpower (18 / M) (1 / 3) / 100) * A * P / (8.314 * T)) "g/s".
Proof. exact evaporation. Qed.
Print Assumptions C75_evaporation.

Example C75_case : In "mol" substances /\ In "min" times /\ In "L" ["L"; "m^3"; "ft^3"] /\
  exists v0 vr, multi "MolarFlowRate" 5 "mol/min" = Ok v0 /\ multi "ReactionRate" (- 2) "mol/L*min" = Ok vr.
Proof. repeat (split; [cbn; tauto|]). repeat eexists; reflexivity. Qed.

