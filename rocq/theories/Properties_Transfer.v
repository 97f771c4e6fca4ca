(** * Properties of the heat and mass transfer correlations (C66-C70)

    Arguments are the objects the constructors build from numbers and unit texts;
    "denotes" (TransferSpec) fixes the quantity of a result in every coherent system of
    units, whichever way its unit is written. *)
From Coq Require Import String Ascii List ZArith QArith Qcanon Bool Reals Lia Lra.
From Verif Require Import Py Num UnitsData UnitsStruct Units Spec ConvSpec Solve Formulas Correlations FormulaSpec TransferSpec
  CoefficientFacts GroupFacts PulseFacts.
Import ListNotations.
Local Open Scope string_scope.
Local Open Scope list_scope.
Local Open Scope R_scope.


(** ** C66: heat transfer coefficients *)

(** The coefficient is Nu k / L with the documented Nusselt number, per area and degree. *)
Theorem C66_units : forall f nu p l th (Re Pr psi k L : R) vk vL, In (f, nu) nusselt_table -> In p powers -> In l lengths -> In th temperatures ->
  multi "ThermalConductivity" k (p +++ l +++ "*" +++ th) = Ok vk -> simple Length L l = Ok vL -> 0 < Re -> 0 < Pr -> L <> 0 ->
  exists r, f (VNum Re) (VNum Pr) vL vk (VNum psi) = Ok r /\ value r = nu Re Pr psi * k / L /\ denotes r (nu Re Pr psi * k / L) (p +++ l +++ "^2*" +++ th).
Proof. exact htc_units. Qed.
Print Assumptions C66_units.

(** Whatever the units of k and L, prefixes included. *)
Theorem C66_quantity : forall f nu Re Pr psi (k : multi_obj R) (L : unit_obj R), In (f, nu) nusselt_table -> 0 < Re -> 0 < Pr ->
  adm_multi k -> admissible (un L) -> uv L <> 0 ->
  exists r, f (VNum Re) (VNum Pr) (VUnit L) (VMulti k) (VNum psi) = Ok r /\
  forall w x y, coherent w -> qty w (VMulti k) = Some x -> qty w (VUnit L) = Some y -> qty w r = Some (nu Re Pr psi * x / y).
Proof. exact htc_quantity. Qed.
Print Assumptions C66_quantity.

Theorem C66_increasing : forall f nu Re Re' Pr psi k L r, In (f, nu) nusselt_table -> 0 < Re -> Re < Re' -> 0 < Pr -> 0 < psi -> 0 < value k -> 0 < value L ->
  f (VNum Re) (VNum Pr) L k (VNum psi) = Ok r -> exists r', f (VNum Re') (VNum Pr) L k (VNum psi) = Ok r' /\ same_unit r r' /\ value r < value r'.
Proof. exact htc_increasing. Qed.
Print Assumptions C66_increasing.

(** The averaged turbulent correlation is negative at Reynolds numbers it accepts
    without complaint. *)
Theorem C66_positive_refuted : exists k L vk vL r, 0 < k /\ 0 < L /\ multi "ThermalConductivity" k "W/m*K" = Ok vk /\ simple Length L "m" = Ok vL /\
  htc_open_field_turbulent_avg (VNum 100000) (VNum 1) vL vk (VNum 1) = Ok r /\ value r < 0.
Proof. exact turbulent_negative_ex. Qed.
Print Assumptions C66_positive_refuted.

Example C66_case : In (htc_pipe_turbulent, fun Re Pr psi => 0.023 * Rpower Re 0.8 * Rpower Pr (1 / 3) * psi) nusselt_table /\
  In "W/" powers /\ In "m" lengths /\ In "K" temperatures /\
  exists vk vL, multi "ThermalConductivity" 0.6 "W/m*K" = Ok vk /\ simple Length 0.05 "m" = Ok vL.
Proof. split; [cbn; tauto|]. split; [left; reflexivity|]. split; [left; reflexivity|]. split; [left; reflexivity|]. repeat eexists; reflexivity. Qed.


Theorem C66_pipe_laminar : forall p l th (Re Pr d L k psi : R) vd vL vk, In p powers -> In l lengths -> In th temperatures ->
  simple Length d l = Ok vd -> simple Length L l = Ok vL -> multi "ThermalConductivity" k (p +++ l +++ "*" +++ th) = Ok vk -> 0 < Re -> 0 < Pr -> 0 < d -> 0 < L ->
  exists r, htc_pipe_laminar (VNum Re) (VNum Pr) vd vL vk (VNum psi) = Ok r /\
  value r = 1.85 * Rpower (Re * Pr * (d / L)) (1 / 3) * psi * k / d /\ denotes r (1.85 * Rpower (Re * Pr * (d / L)) (1 / 3) * psi * k / d) (p +++ l +++ "^2*" +++ th).
Proof. exact pipe_laminar_units. Qed.
Print Assumptions C66_pipe_laminar.

Theorem C66_short_pipe : forall u u2 u3 l (h d L : R) vh vd vL, In (u, u2, u3) bi_texts -> In l lengths ->
  multi "HeatTransferCoefficient" h u = Ok vh -> simple Length d l = Ok vd -> simple Length L l = Ok vL -> 0 < d -> 0 < L ->
  exists r, htc_short_pipe_correction vh vd vL = Ok r /\ value r = h * (1 + Rpower (d / L) 0.7) /\ denotes r (h * (1 + Rpower (d / L) 0.7)) u.
Proof. exact short_pipe_units. Qed.
Print Assumptions C66_short_pipe.

Theorem C66_wall_viscosity : forall u (a b : R) va vb, In u viscosities -> multi "DynamicViscosity" a u = Ok va -> multi "DynamicViscosity" b u = Ok vb -> 0 < a -> 0 < b ->
  wall_viscosity_correction_factor va vb = Ok (VNum (Rpower (a / b) 0.14)).
Proof. exact wall_viscosity_number. Qed.
Print Assumptions C66_wall_viscosity.

(** The laminar correlations convert their result: its unit is W/m^2*K, or BTU/hr*ft^2*F
    if the conductivity mentions BTU, and it is the quantity Nu k / L. *)
Theorem C66_laminar : forall f nu p l th (Re Pr psi k L : R) vk vL, In (f, nu) laminar_table -> In p powers -> In l lengths -> In th ["K"; "R"; "F"] ->
  multi "ThermalConductivity" k (p +++ l +++ "*" +++ th) = Ok vk -> simple Length L l = Ok vL -> 0 < Re -> 0 < Pr -> L <> 0 ->
  exists m, f tables0 (VNum Re) (VNum Pr) vL vk (VNum psi) = Ok (VMulti m) /\ mc m = MSub "HeatTransferCoefficient" /\
  parse_units (if str_in "BTU" p then "BTU/hr*ft^2*F" else "W/m^2*K") = Ok (mtop m, mbot m) /\
  forall w x y, physical w -> qty w vk = Some x -> qty w vL = Some y -> qty w (VMulti m) = Some (nu Re Pr psi * x / y).
Proof. exact laminar_units. Qed.
Print Assumptions C66_laminar.

(** With a conductivity per degree C they raise: C is the coulomb in a MultiUnit. *)
Theorem C66_laminar_celsius : forall f nu p l (Re Pr psi k L : R) vk vL, In (f, nu) laminar_table -> In p powers -> In l lengths ->
  multi "ThermalConductivity" k (p +++ l +++ "*C") = Ok vk -> simple Length L l = Ok vL -> 0 < Re -> 0 < Pr -> L <> 0 ->
  exists e, f tables0 (VNum Re) (VNum Pr) vL vk (VNum psi) = Raise e.
Proof. exact laminar_celsius. Qed.
Print Assumptions C66_laminar_celsius.

Theorem C66_laminar_celsius_refuted : exists k L vk vL e, 0 < k /\ 0 < L /\ multi "ThermalConductivity" k "W/m*C" = Ok vk /\ simple Length L "m" = Ok vL /\
  htc_open_field_laminar_avg tables0 (VNum 1000) (VNum 1) vL vk (VNum 1) = Raise e.
Proof. exact laminar_celsius_ex. Qed.
Print Assumptions C66_laminar_celsius_refuted.

Example C66_laminar_case : In "BTU/hr*" powers /\ In "ft" lengths /\ In "F" ["K"; "R"; "F"] /\
  exists vk vL, multi "ThermalConductivity" 0.3 "BTU/hr*ft*F" = Ok vk /\ simple Length 2 "ft" = Ok vL.
Proof. split; [cbn; tauto|]. split; [cbn; tauto|]. split; [cbn; tauto|]. repeat eexists; reflexivity. Qed.



(** ** C67: Graetz and Grashof numbers *)

Theorem C67_gretz : forall M l t e th (d L cp cl rho v k : R) vd vL vcp vcl vrho vv vk, In M masses -> In l lengths -> In t times -> In e energies -> In th temperatures ->
  simple Length d l = Ok vd -> simple Length L l = Ok vL -> multi "HeatCapacity" cp (e +++ "/" +++ M +++ "*" +++ th) = Ok vcp -> simple Length cl l = Ok vcl ->
  multi "Density" rho (M +++ "/" +++ l +++ "^3") = Ok vrho -> multi "Velocity" v (l +++ "/" +++ t) = Ok vv ->
  multi "ThermalConductivity" k (e +++ "/" +++ t +++ "*" +++ l +++ "*" +++ th) = Ok vk -> k <> 0 -> L <> 0 ->
  gretz vd vL vcp vcl vrho vv vk = Ok (VNum (cp * d * cl * rho * v / (k * L))).
Proof. exact gretz_number. Qed.
Print Assumptions C67_gretz.

(** The expansion coefficient is a Unit of exponent -1. *)
Theorem C67_grashof : forall M l t th (g b T2 T1 L rho mu : R) vg vb v2 v1 vL vrho vmu, In M masses -> In l lengths -> In t times -> In th temperatures ->
  multi "Acceleration" g (l +++ "/" +++ t +++ "^2") = Ok vg -> powered Temperature b th (eint (-1)) = Ok vb ->
  simple Temperature T2 th = Ok v2 -> simple Temperature T1 th = Ok v1 -> simple Length L l = Ok vL ->
  multi "Density" rho (M +++ "/" +++ l +++ "^3") = Ok vrho -> multi "DynamicViscosity" mu (M +++ "/" +++ l +++ "*" +++ t) = Ok vmu -> mu <> 0 ->
  grashof vg vb v2 v1 vL vrho vmu = Ok (VNum (L ^ 3 * rho ^ 2 * b * (T2 - T1) * g / mu ^ 2)).
Proof. exact grashof_number. Qed.
Print Assumptions C67_grashof.

(** beta_expansion returns such a Unit and its result can be used in grashof. *)
Theorem C67_beta : forall M l th (r1 r2 T2 T1 : R) v1 v2 u2 u1, In M masses -> In l lengths -> In th degrees ->
  multi "Density" r1 (M +++ "/" +++ l +++ "^3") = Ok v1 -> multi "Density" r2 (M +++ "/" +++ l +++ "^3") = Ok v2 ->
  simple Temperature T2 th = Ok u2 -> simple Temperature T1 th = Ok u1 -> r1 + r2 <> 0 -> T2 <> T1 ->
  exists u, beta_expansion v1 v2 u2 u1 = Ok (VUnit u) /\ uv u = (r1 - r2) / ((r1 + r2) / 2 * (T2 - T1)) /\ un u = th /\ ev (ue u) = qc (-1).
Proof. exact beta_per_degree. Qed.
Print Assumptions C67_beta.

Theorem C67_beta_grashof : forall M l t th (r1 r2 T2 T1 g L mu : R) v1 v2 u2 u1 vg vL vmu, In M masses -> In l lengths -> In t times -> In th temperatures ->
  multi "Density" r1 (M +++ "/" +++ l +++ "^3") = Ok v1 -> multi "Density" r2 (M +++ "/" +++ l +++ "^3") = Ok v2 ->
  simple Temperature T2 th = Ok u2 -> simple Temperature T1 th = Ok u1 ->
  multi "Acceleration" g (l +++ "/" +++ t +++ "^2") = Ok vg -> simple Length L l = Ok vL -> multi "DynamicViscosity" mu (M +++ "/" +++ l +++ "*" +++ t) = Ok vmu ->
  r1 + r2 <> 0 -> T2 <> T1 -> mu <> 0 ->
  (let* b := beta_expansion v1 v2 u2 u1 in grashof vg b u2 u1 vL v1 vmu) = Ok (VNum (L ^ 3 * r1 ^ 2 * g * (2 * (r1 - r2) / (r1 + r2)) / mu ^ 2)).
Proof. exact beta_grashof. Qed.
Print Assumptions C67_beta_grashof.

(** With temperatures in C the coefficient is per coulomb. *)
Theorem C67_beta_celsius : forall M l (r1 r2 T2 T1 : R) v1 v2 u2 u1, In M masses -> In l lengths ->
  multi "Density" r1 (M +++ "/" +++ l +++ "^3") = Ok v1 -> multi "Density" r2 (M +++ "/" +++ l +++ "^3") = Ok v2 ->
  simple Temperature T2 "C" = Ok u2 -> simple Temperature T1 "C" = Ok u1 -> r1 + r2 <> 0 -> T2 <> T1 ->
  exists r, beta_expansion v1 v2 u2 u1 = Ok r /\ denotes r ((r1 - r2) / ((r1 + r2) / 2 * (T2 - T1))) "A^-1*s^-1".
Proof. exact beta_celsius. Qed.
Print Assumptions C67_beta_celsius.

(** An expansion coefficient written "1/K" does not give a number. *)
Theorem C67_grashof_text : forall (g b T2 T1 L rho mu : R) vg vb v2 v1 vL vrho vmu, multi "Acceleration" g "m/s^2" = Ok vg -> constant b "1/K" = Ok vb -> simple Temperature T2 "K" = Ok v2 -> simple Temperature T1 "K" = Ok v1 -> simple Length L "m" = Ok vL ->
  multi "Density" rho "kg/m^3" = Ok vrho -> multi "DynamicViscosity" mu "kg/m*s" = Ok vmu -> mu <> 0 ->
  exists u, grashof vg vb v2 v1 vL vrho vmu = Ok (VUnit u) /\ un u = "1".
Proof. exact grashof_text. Qed.
Print Assumptions C67_grashof_text.

Theorem C67_grashof_text_refuted : exists vg vb v2 v1 vL vrho vmu u,
  multi "Acceleration" 9.81 "m/s^2" = Ok vg /\ constant 1 "1/K" = Ok vb /\ simple Temperature 2 "K" = Ok v2 /\ simple Temperature 1 "K" = Ok v1 /\ simple Length 1 "m" = Ok vL /\
  multi "Density" 1 "kg/m^3" = Ok vrho /\ multi "DynamicViscosity" 1 "kg/m*s" = Ok vmu /\ grashof vg vb v2 v1 vL vrho vmu = Ok (VUnit u).
Proof. exact grashof_text_ex. Qed.
Print Assumptions C67_grashof_text_refuted.

Example C67_case : exists vg vb v2 v1 vL vrho vmu,
  multi "Acceleration" 9.81 "m/s^2" = Ok vg /\ powered Temperature 0.003 "K" (eint (-1)) = Ok vb /\ simple Temperature 350 "K" = Ok v2 /\ simple Temperature 300 "K" = Ok v1 /\
  simple Length 2 "m" = Ok vL /\ multi "Density" 1.2 "kg/m^3" = Ok vrho /\ multi "DynamicViscosity" 0.00002 "kg/m*s" = Ok vmu.
Proof. repeat eexists; reflexivity. Qed.
Example C67_gretz_case : In "lb" masses /\ In "ft" lengths /\ In "hr" times /\ In "BTU" energies /\ In "F" temperatures /\
  exists vcp vk, multi "HeatCapacity" 1 "BTU/lb*F" = Ok vcp /\ multi "ThermalConductivity" 0.35 "BTU/hr*ft*F" = Ok vk.
Proof. repeat (split; [cbn; tauto|]). repeat eexists; reflexivity. Qed.



(** ** C68: transient slabs *)

(** For every function used as the error function. *)
Theorem C68_semi_infinite : forall (g : R -> R) ud uc_ uk th l t (Ts To z time rho cp k : R) vs vo vz vt vd vc vk, In (ud, uc_, uk, th, l, t) slab_texts ->
  simple Temperature Ts th = Ok vs -> simple Temperature To th = Ok vo -> simple Length z l = Ok vz -> simple Time time t = Ok vt ->
  multi "Density" rho ud = Ok vd -> multi "HeatCapacity" cp uc_ = Ok vc -> multi "ThermalConductivity" k uk = Ok vk -> 0 < rho -> 0 < cp -> 0 < k -> 0 < time ->
  exists r, semi_infinite_slab_conduction g vs vo vz vt vd vc vk = Ok r /\ is_simple Temperature (Ts - (Ts - To) * g (z / sqrt (4 * (k / (rho * cp)) * time))) th r.
Proof. exact semi_infinite. Qed.
Print Assumptions C68_semi_infinite.

Theorem C68_finite : forall ud uc_ uk th l t (Ts To x s time rho cp k : R) vTs vTo vx vs vt vd vc vk n, In (ud, uc_, uk, th, l, t) slab_texts ->
  simple Temperature Ts th = Ok vTs -> simple Temperature To th = Ok vTo -> simple Length x l = Ok vx -> simple Length s l = Ok vs -> simple Time time t = Ok vt ->
  multi "Density" rho ud = Ok vd -> multi "HeatCapacity" cp uc_ = Ok vc -> multi "ThermalConductivity" k uk = Ok vk -> rho <> 0 -> cp <> 0 -> s <> 0 ->
  exists r, finite_slab_conduction vTs vTo vx vs vk vd vc vt n = Ok r /\
    is_simple Temperature (Ts - (Ts - To) * (4 / PI) * slab_series x s (k / (rho * cp) * time / s ^ 2) (S n)) th r.
Proof. exact finite_slab. Qed.
Print Assumptions C68_finite.

Theorem C68_surface : forall s fo n, slab_series 0 s fo n = 0.
Proof. exact slab_series_0. Qed.
Print Assumptions C68_surface.

Theorem C68_mirror : forall x s fo n, s <> 0 -> slab_series (2 * s - x) s fo n = slab_series x s fo n.
Proof. exact slab_series_sym. Qed.
Print Assumptions C68_mirror.

Theorem C68_heat : forall M l t e th uk (s rho cp Ts To k time A : R) vs vd vc vTs vTo vk vt vA n, In M masses -> In l lengths -> In t times -> In e energies -> In th temperatures ->
  (uk = e +++ "/" +++ t +++ "*" +++ l +++ "*" +++ th \/ (e = "J" /\ t = "s" /\ uk = "W/" +++ l +++ "*" +++ th)) ->
  simple Length s l = Ok vs -> multi "Density" rho (M +++ "/" +++ l +++ "^3") = Ok vd -> multi "HeatCapacity" cp (e +++ "/" +++ M +++ "*" +++ th) = Ok vc ->
  simple Temperature Ts th = Ok vTs -> simple Temperature To th = Ok vTo -> multi "ThermalConductivity" k uk = Ok vk -> simple Time time t = Ok vt -> simple Area A (l +++ "^2") = Ok vA ->
  rho <> 0 -> cp <> 0 -> s <> 0 ->
  exists r, finite_slab_total_heat vs vd vc vTs vTo vk vt vA n = Ok r /\
    value r = 8 * s * rho * cp * (Ts - To) * A / PI ^ 2 * heat_series (k / (rho * cp) * time / s ^ 2) n /\
    denotes r (8 * s * rho * cp * (Ts - To) * A / PI ^ 2 * heat_series (k / (rho * cp) * time / s ^ 2) n) e.
Proof. exact slab_heat. Qed.
Print Assumptions C68_heat.

(** No heat at time zero, and more with time and with every further term. *)
Theorem C68_heat_start : forall n, heat_series 0 n = 0.
Proof. exact heat_series_0. Qed.
Print Assumptions C68_heat_start.

Theorem C68_heat_grows : forall fo fo' n, 0 <= fo -> fo < fo' -> (0 < n)%nat -> heat_series fo n < heat_series fo' n.
Proof. exact heat_series_fo. Qed.
Print Assumptions C68_heat_grows.

Theorem C68_heat_terms : forall fo n, 0 < fo -> heat_series fo n < heat_series fo (S n).
Proof. exact heat_series_inc. Qed.
Print Assumptions C68_heat_terms.

Theorem C68_melting : forall ud uh uk th l t (rho hf k Ts Tm li lf : R) vd vh vk vs vm vi vf, In (ud, uh, uk, th, l, t) melt_texts ->
  multi "Density" rho ud = Ok vd -> constant hf uh = Ok vh -> multi "ThermalConductivity" k uk = Ok vk ->
  simple Temperature Ts th = Ok vs -> simple Temperature Tm th = Ok vm -> simple Length li l = Ok vi -> simple Length lf l = Ok vf -> k <> 0 -> Ts <> Tm ->
  exists r, pseudo_steady_time vd vh vk vs vm vi vf = Ok r /\ value r = rho * hf / (k * (Ts - Tm)) * ((lf ^ 2 - li ^ 2) / 2) /\
  denotes r (rho * hf / (k * (Ts - Tm)) * ((lf ^ 2 - li ^ 2) / 2)) t.
Proof. exact melting_time. Qed.
Print Assumptions C68_melting.

(** Diffusion: for every function used as erf or erfc. *)
Theorem C68_semi_infinite_diffusion : forall (g : R -> R) c l t (Cs Co z D time : R) vs vo vz vD vt, In c concentrations -> In l lengths -> In t times ->
  multi "Concentration" Cs c = Ok vs -> multi "Concentration" Co c = Ok vo -> simple Length z l = Ok vz -> multi "DiffusionCoefficient" D (l +++ "^2/" +++ t) = Ok vD ->
  simple Time time t = Ok vt -> 0 < D -> 0 < time ->
  exists r, semi_infinite_slab_diffusion g vs vo vz vD vt = Ok r /\ value r = Cs - (Cs - Co) * g (z / sqrt (4 * D * time)) /\
    denotes r (Cs - (Cs - Co) * g (z / sqrt (4 * D * time))) c.
Proof. exact semi_infinite_diffusion. Qed.
Print Assumptions C68_semi_infinite_diffusion.

Theorem C68_finite_diffusion : forall (g : R -> R) c l t (Cs Co a z D time : R) vs vo va vz vD vt n, In c concentrations -> In l lengths -> In t times ->
  multi "Concentration" Cs c = Ok vs -> multi "Concentration" Co c = Ok vo -> simple Length a l = Ok va -> simple Length z l = Ok vz ->
  multi "DiffusionCoefficient" D (l +++ "^2/" +++ t) = Ok vD -> simple Time time t = Ok vt -> 0 < D -> 0 < time ->
  exists r, finite_slab_diffusion g vs vo va vz vD vt n = Ok r /\ value r = Cs - (Cs - Co) * diffusion_series g a z (sqrt (4 * D * time)) n /\
    denotes r (Cs - (Cs - Co) * diffusion_series g a z (sqrt (4 * D * time)) n) c.
Proof. exact finite_diffusion. Qed.
Print Assumptions C68_finite_diffusion.

Theorem C68_diffusion_mirror : forall g a z w n, diffusion_series g a (- z) w n = diffusion_series g a z w n.
Proof. exact diffusion_series_sym. Qed.
Print Assumptions C68_diffusion_mirror.

Example C68_case : In ("kg/m^3", "J/kg*K", "W/m*K", "K", "m", "s") slab_texts /\ In ("lb/ft^3", "BTU/lb", "BTU/hr*ft*F", "F", "ft", "hr") melt_texts /\
  exists vd vc vk vT vz vt, multi "Density" 1000 "kg/m^3" = Ok vd /\ multi "HeatCapacity" 4000 "J/kg*K" = Ok vc /\ multi "ThermalConductivity" 0.6 "W/m*K" = Ok vk /\
    simple Temperature 300 "K" = Ok vT /\ simple Length 0.1 "m" = Ok vz /\ simple Time 60 "s" = Ok vt.
Proof. split; [apply (nth_error_In _ 288); vm_compute; reflexivity|]. split; [apply (nth_error_In _ 239); vm_compute; reflexivity|]. repeat eexists; reflexivity. Qed.
Example C68_diffusion_case : In "mol/L" concentrations /\  exists vs vD, multi "Concentration" 2 "mol/L" = Ok vs /\ multi "DiffusionCoefficient" 0.1 "m^2/s" = Ok vD.
Proof. split; [left; reflexivity|]. repeat eexists; reflexivity. Qed.



(** ** C69: decay of a pulse *)

(** A Gaussian in three, two and one dimensions, in mass per volume. *)
Theorem C69_pulses : forall shape M l t (m d D time L A : R) vm vd vD vt vL vA, In M masses -> In l lengths -> In t times ->
  simple Mass m M = Ok vm -> simple Length d l = Ok vd -> multi "DiffusionCoefficient" D (l +++ "^2/" +++ t) = Ok vD -> simple Time time t = Ok vt ->
  simple Length L l = Ok vL -> simple Area A (l +++ "^2") = Ok vA -> 0 < D -> 0 < time -> L <> 0 -> A <> 0 ->
  (exists r, three_d_pulse_decay vm vd vD vt shape = Ok r /\
    denotes r (shape_factor shape * m * exp (- d ^ 2 / (4 * D * time)) / Rpower (4 * PI * D * time) (3 / 2)) (M +++ "/" +++ l +++ "^3")) /\
  (exists r, two_d_pulse_decay vm vL vd vD vt = Ok r /\ denotes r (m / L * exp (- d ^ 2 / (4 * D * time)) / (4 * PI * D * time)) (M +++ "/" +++ l +++ "^3")) /\
  (exists r, one_d_pulse_decay vm vA vd vD vt = Ok r /\ denotes r (m / A * exp (- d ^ 2 / (4 * D * time)) / sqrt (4 * PI * D * time)) (M +++ "/" +++ l +++ "^3")).
Proof. exact pulses. Qed.
Print Assumptions C69_pulses.

(** With a diffusion coefficient in cm^2/s and the other quantities in SI units its
    number is used as if it were in m^2/s. *)
Theorem C69_prefix : forall (m D time : R) vm vd vD vt, 0 < m -> 0 < D -> 0 < time ->
  simple Mass m "kg" = Ok vm -> simple Length 0 "m" = Ok vd -> multi "DiffusionCoefficient" D "cm^2/s" = Ok vD -> simple Time time "s" = Ok vt ->
  exists r, three_d_pulse_decay vm vd vD vt "sphere" = Ok r /\ denotes r (m / Rpower (4 * PI * D * time) (3 / 2)) "kg/m^3" /\
    ~ denotes r (m / Rpower (4 * PI * (D / 10000) * time) (3 / 2)) "kg/m^3".
Proof. exact pulse_prefix. Qed.
Print Assumptions C69_prefix.

Theorem C69_prefix_refuted : exists vm vd vD vt r, simple Mass 1 "kg" = Ok vm /\ simple Length 0 "m" = Ok vd /\ multi "DiffusionCoefficient" 1 "cm^2/s" = Ok vD /\ simple Time 1 "s" = Ok vt /\
  three_d_pulse_decay vm vd vD vt "sphere" = Ok r /\ ~ denotes r (1 / Rpower (4 * PI * (1 / 10000) * 1) (3 / 2)) "kg/m^3".
Proof. exact pulse_prefix_ex. Qed.
Print Assumptions C69_prefix_refuted.

Example C69_case : In "g" masses /\ In "m" lengths /\ In "s" times /\ shape_factor "cube" = 8 /\
  exists vm vd vD vt vL vA, simple Mass 5 "g" = Ok vm /\ simple Length 2 "m" = Ok vd /\ multi "DiffusionCoefficient" 0.01 "m^2/s" = Ok vD /\
    simple Time 60 "s" = Ok vt /\ simple Length 1 "m" = Ok vL /\ simple Area 1 "m^2" = Ok vA.
Proof. repeat (split; [first [cbn; tauto|reflexivity]|]). repeat eexists; reflexivity. Qed.



(** ** C70: radiation *)

Theorem C70_value : forall a th (A F T1 T2 : R) vA v1 v2, In a areas -> In th temperatures -> simple Area A a = Ok vA -> simple Temperature T1 th = Ok v1 -> simple Temperature T2 th = Ok v2 ->
  radiative_heat_flow vA (VNum F) v1 v2 = multi "Power" (5.67 / 10 ^ 8 * A * F * (T1 ^ 4 - T2 ^ 4)) "W".
Proof. exact radiation_value. Qed.
Print Assumptions C70_value.

(** In SI units the number is right. *)
Theorem C70_si : forall (A F T1 T2 : R) vA v1 v2, simple Area A "m^2" = Ok vA -> simple Temperature T1 "K" = Ok v1 -> simple Temperature T2 "K" = Ok v2 ->
  exists r, radiative_heat_flow vA (VNum F) v1 v2 = Ok r /\ value r = 5.67 / 10 ^ 8 * A * F * (T1 ^ 4 - T2 ^ 4) /\ denotes r (5.67 / 10 ^ 8 * A * F * (T1 ^ 4 - T2 ^ 4)) "W".
Proof. exact radiation_si. Qed.
Print Assumptions C70_si.

Theorem C70_balance : forall a th (A F T1 T2 : R) vA v1 v2, In a areas -> In th temperatures -> simple Area A a = Ok vA -> simple Temperature T1 th = Ok v1 -> simple Temperature T2 th = Ok v2 ->
  0 < A -> 0 < F -> 0 <= T1 -> 0 <= T2 ->
  exists r r', radiative_heat_flow vA (VNum F) v1 v2 = Ok r /\ radiative_heat_flow vA (VNum F) v2 v1 = Ok r' /\ value r' = - value r /\
    (value r = 0 <-> T1 = T2) /\ (0 < value r <-> T2 < T1).
Proof. exact radiation_balance. Qed.
Print Assumptions C70_balance.

(** In other units it is not: the units of area and temperature are ignored. *)
Theorem C70_label : forall (A F T1 T2 : R) vA vA' v1 v2, simple Area A "m^2" = Ok vA -> simple Area A "ft^2" = Ok vA' -> simple Temperature T1 "K" = Ok v1 -> simple Temperature T2 "K" = Ok v2 ->
  radiative_heat_flow vA (VNum F) v1 v2 = radiative_heat_flow vA' (VNum F) v1 v2.
Proof. exact radiation_label. Qed.
Print Assumptions C70_label.

Theorem C70_label_refuted : exists vA vA' v1 v2 r, simple Area 1 "m^2" = Ok vA /\ simple Area 1 "ft^2" = Ok vA' /\ simple Temperature 2 "K" = Ok v1 /\ simple Temperature 1 "K" = Ok v2 /\
  radiative_heat_flow vA (VNum 1) v1 v2 = Ok r /\ radiative_heat_flow vA' (VNum 1) v1 v2 = Ok r /\ value r <> 0.
Proof. exact radiation_label_ex. Qed.
Print Assumptions C70_label_refuted.

Example C70_case : In "ft^2" areas /\ In "R" temperatures /\ exists vA v1, simple Area 3 "ft^2" = Ok vA /\ simple Temperature 500 "R" = Ok v1.
Proof. repeat (split; [cbn; tauto|]). repeat eexists; reflexivity. Qed.

