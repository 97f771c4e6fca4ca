(** * Formulas: the engineering functions of the library

    Every function is written with the operators of Units.v, in the order in which
    Python evaluates the source.  Arguments are Python values: numbers, Units or
    MultiUnits.  [math.pi] and decimal constants are exact; math.exp does not
    overflow. *)
From Coq Require Import String Ascii List ZArith QArith Qcanon Bool Reals.
From Verif Require Import Py Num UnitsData UnitsStruct Units Solve.
Import ListNotations.
Local Open Scope string_scope.
Local Open Scope list_scope.
Local Open Scope R_scope.

Notation val := (pyval R).
Definition omul (x y : res val) : res val := let* a := x in let* b := y in py_mul a b.
Definition odiv (x y : res val) : res val := let* a := x in let* b := y in py_div a b.
Definition oadd (x y : res val) : res val := let* a := x in let* b := y in py_add a b.
Definition osub (x y : res val) : res val := let* a := x in let* b := y in py_sub a b.
Definition oneg (x : res val) : res val := let* a := x in py_neg a.
Definition opow (x : res val) (k : expo) : res val := let* a := x in py_pow a k.

Declare Scope py_scope.
Delimit Scope py_scope with py.
Notation "! v" := (Ok v) (at level 5, v at level 4, format "! v") : py_scope.
Notation "$ r" := (Ok (VNum r%R)) (at level 5, r at level 4, format "$ r") : py_scope.
Notation "x * y" := (omul x%py y%py) : py_scope.
Notation "x / y" := (odiv x%py y%py) : py_scope.
Notation "x + y" := (oadd x%py y%py) : py_scope.
Notation "x - y" := (osub x%py y%py) : py_scope.
Notation "- x" := (oneg x%py) : py_scope.
Notation "x ** k" := (opow x%py k) (at level 30, right associativity) : py_scope.

Definition half_ : expo := eflt (Q2Qc (1 # 2)).
Definition third_ : expo := eflt (Q2Qc (1 # 3)).
Definition quarter_ : expo := eflt (Q2Qc (1 # 4)).

(** ** The module math: the argument must be a number (no class of units.py has
    __float__), the logarithm a positive one. *)
Definition math_log (x : res val) : res val :=
  let* a := x in
  match a with
  | VNum r => if Rltb 0 r then Ok (VNum (ln r)) else Raise EValueError
  | _ => Raise ETypeError
  end.
Definition math1 (f : R -> R) (x : res val) : res val :=
  let* a := x in match a with VNum r => Ok (VNum (f r)) | _ => Raise ETypeError end.
Definition math_exp := math1 exp.
Definition math_sin := math1 sin.

(** ** heat_transfer/steady_state_conduction.py *)
Section Conduction.
Local Open Scope py_scope.

(** Lines 11-72.  [param env p] is the parameter [p] of the body. *)
Definition param (env : list (string * arg val)) (p : string) : res val :=
  match dict_get env p with
  | Some (AVal v) => Ok v
  | Some ANone => Ok VNone
  | _ => Raise EUnboundLocalError
  end.
Definition planar_heat_body (env extra : list (string * arg val)) : res val :=
  let k := param env "k" in let T1 := param env "T1" in let T2 := param env "T2" in
  let A := param env "A" in let thickness := param env "thickness" in let q := param env "q" in
  match dict_get extra "solving_for" with
  | Some (AName s) =>
      if String.eqb s "q" then -k * A * ((T2 - T1) / thickness)
      else if String.eqb s "thickness" then (-k * A * (T2 - T1)) / q
      else if String.eqb s "T2" then ((thickness * q) / (-k * A)) + T1
      else if String.eqb s "T1" then -((thickness * q) / (-k * A)) + T2
      else Ok VNone
  | _ => Raise EKeyError
  end.
Definition planar_heat (args : list (arg val)) (kw : list (string * arg val)) : res val :=
  decorated planar_heat_solvable 1 (planar_heat_sig val) planar_heat_body args kw.

(** Lines 74-133. *)
Definition planar_flux_body (env extra : list (string * arg val)) : res val :=
  let k := param env "k" in let T1 := param env "T1" in let T2 := param env "T2" in
  let thickness := param env "thickness" in let qA := param env "qA" in
  match dict_get extra "solving_for" with
  | Some (AName s) =>
      if String.eqb s "qA" then -k * ((T2 - T1) / thickness)
      else if String.eqb s "thickness" then (-k * (T2 - T1)) / qA
      else if String.eqb s "T2" then ((thickness * qA) / (-k)) + T1
      else if String.eqb s "T1" then -((thickness * qA) / (-k)) + T2
      else Ok VNone
  | _ => Raise EKeyError
  end.
Definition planar_flux (args : list (arg val)) (kw : list (string * arg val)) : res val :=
  decorated planar_flux_solvable 1 (planar_flux_sig val) planar_flux_body args kw.

(** Lines 135-162. *)
Definition pipe_heat (k T1 T2 length r2 r1 : val) : res val :=
  $(-2) * $PI * !length * !k * ((!T2 - !T1) / math_log (!r2 / !r1)).
(** Lines 164-186; [k] is not used. *)
Definition sphere_heat (k T1 T2 outer_radius inner_radius : val) : res val :=
  $(-4) * $PI * !inner_radius * !outer_radius * ((!T2 - !T1) / (!outer_radius - !inner_radius)).
End Conduction.

(** ** heat_transfer/heat_exchangers.py *)
Section Exchangers.
Local Open Scope py_scope.

(** Lines 13-40. *)
Definition equivalent_diameter (cross_sectional_area wetted_perimeter : val) : res val :=
  $4 * (!cross_sectional_area / !wetted_perimeter).
(** Lines 43-71; in the cocurrent case line 59 assigns T0B to the difference
    itself. *)
Definition deltat_logmean (T0A T1A T0B T1B : val) (cocurrent : bool) : res val :=
  let* ab :=
    (if cocurrent then let* b := !T1A - !T1B in Ok (T0B, b)
     else let* a := !T0A - !T1B in let* b := !T1A - !T0B in Ok (a, b)) in
  let '(a, b) := ab in
  (!a - !b) / math_log (!a / !b).
(** Lines 77-94. *)
Definition exchanger_body (env extra : list (string * arg val)) : res val :=
  match dict_get extra "solving_for" with
  | Some (ANames (x :: y :: _)) =>
      if (String.eqb x "cp1" && String.eqb y "m1") || (String.eqb x "cp2" && String.eqb y "m2")
      then Raise EUnsolvableEquation
      else Ok VNone
  | Some (ANames _) => Raise EIndexError
  | _ => Raise EKeyError
  end.
Definition solve_heat_exchanger_system (args : list (arg val)) (kw : list (string * arg val)) : res val :=
  decorated exchanger_solvable 2 (exchanger_sig VObj) exchanger_body args kw.
(** Lines 115-140. *)
Definition Ge_calc (m_shell Sb Sc : val) : res val :=
  let* Gb := !m_shell / !Sb in
  let* Gc := !m_shell / !Sc in
  (!Gb * !Gc) ** half_.
Definition Sb_calc (fb Ds Nb Do : val) : res val :=
  !fb * (($PI * !Ds ** eint 2) / $4) - !Nb * (($PI * !Do ** eint 2) / $4).
Definition Sc_calc (P Ds Do p : val) : res val := !P * !Ds * ($1 - !Do / !p).
Definition htc_shell (Do Ge mu Pr k psi_v : val) : res val :=
  let* Nu := $0.2 * (!Do * !Ge / !mu) ** eflt (Q2Qc (3 # 5)) * !Pr ** eflt (Q2Qc (33 # 100)) * !psi_v in
  (!Nu * !k) / !Do.
(** Lines 142-168. *)
Definition z_factor (Thot_in Thot_out Tcold_in Tcold_out : val) : res val :=
  (!Thot_in - !Thot_out) / (!Tcold_out - !Tcold_in).
Definition nh_factor (Thot_in Tcold_in Tcold_out : val) : res val :=
  (!Tcold_out - !Tcold_in) / (!Thot_in - !Tcold_in).
End Exchangers.

(** ** utility/dimensionless.py *)
Section Dimensionless.
Local Open Scope py_scope.

(** Lines 9-68. *)
Definition reynolds (rho v L mu : val) : res val := (!rho * !v * !L) / !mu.
Definition biot (h L k : val) : res val := (!h * !L) / !k.
Definition prandtl (mu cp k : val) : res val := (!mu * !cp) / !k.
Definition schmidt (mu rho D : val) : res val := !mu / (!rho * !D).
(** Lines 71-94. *)
Definition gretz (diameter length cp characteristic_length rho characteristic_speed k : val) : res val :=
  (!cp * !diameter * !characteristic_length * !rho * !characteristic_speed) / (!k * !length).
(** Lines 98-135. *)
Definition grashof (g beta T2 T1 L rho mu : val) : res val :=
  (!L ** eint 3 * !rho ** eint 2 * !beta * (!T2 - !T1) * !g) / (!mu ** eint 2).
(** Lines 137-157. *)
Definition beta_expansion (rho_1 rho_2 T2 T1 : val) : res val :=
  (!rho_1 - !rho_2) / (((!rho_1 + !rho_2) / $2) * (!T2 - !T1)).
End Dimensionless.

(** heat_exchangers.py:97-109; the Reynolds number is computed but not used. *)
Definition shell_htc_full (fb Ds Do Nb P p m_shell mu_shell Cp_shell k_shell : val) : res val :=
  let* Sb := Sb_calc fb Ds Nb Do in
  let* Sc := Sc_calc P Ds Do p in
  let* Ge := Ge_calc m_shell Sb Sc in
  let* _ := (!Do * !Ge / !mu_shell)%py in
  let* Pr := prandtl mu_shell Cp_shell k_shell in
  htc_shell Do Ge mu_shell Pr k_shell (VNum 1).

(** ** heat_transfer/heat_transfer_coefficients.py *)
Section Coefficients.
Local Open Scope py_scope.
Definition pr_third (Pr : val) := !Pr ** third_.

(** Lines 11-23. *)
Definition wall_viscosity_correction_factor (mu mu_wall : val) : res val := (!mu / !mu_wall) ** eflt (Q2Qc (14 # 100)).
(** Lines 107-151. *)
Definition htc_open_field_turbulent_avg (Re Pr L k psi_v : val) : res val :=
  let* Nu := ($0.037 * !Re ** eflt (Q2Qc (4 # 5)) * !Pr ** third_ * !psi_v) - ($871 * !Pr ** third_ * !psi_v) in
  (!Nu * !k) / !L.
(** Lines 153-197. *)
Definition htc_open_field_turbulent_local (Re Pr L k psi_v : val) : res val :=
  let* Nu := $0.0296 * !Re ** eflt (Q2Qc (4 # 5)) * !Pr ** third_ * !psi_v in
  (!Nu * !k) / !L.
(** Lines 200-247. *)
Definition htc_pipe_laminar (Re Pr diameter L k psi_v : val) : res val :=
  let* Nu := $1.85 * (!Re * !Pr * (!diameter / !L)) ** third_ * !psi_v in
  (!Nu * !k) / !diameter.
(** Lines 249-293. *)
Definition htc_pipe_turbulent (Re Pr diameter k psi_v : val) : res val :=
  let* Nu := $0.023 * !Re ** eflt (Q2Qc (4 # 5)) * !Pr ** third_ * !psi_v in
  (!Nu * !k) / !diameter.
(** Lines 296-336. *)
Definition htc_cross_cylinder (Re Pr diameter k : val) : res val :=
  let* Nu := $0.35 * !Pr ** eflt (Q2Qc (3 # 10)) + $0.56 * !Re ** eflt (Q2Qc (52 # 100)) * !Pr ** eflt (Q2Qc (3 # 10)) in
  (!Nu * !k) / !diameter.
(** Lines 338-378. *)
Definition htc_cross_sphere (Re Pr diameter k : val) : res val :=
  let* Nu := $2 + $0.6 * !Re ** half_ * !Pr ** third_ in
  (!Nu * !k) / !diameter.
(** Lines 380-409. *)
Definition htc_short_pipe_correction (h diameter L : val) : res val := !h * ($1 + (!diameter / !L) ** eflt (Q2Qc (7 # 10))).
End Coefficients.

(** ** heat_transfer/non_steady_state_conduction.py *)
Section Transient.
Local Open Scope py_scope.

(** Lines 14-56. *)
Definition pseudo_steady_time (density heat_of_fusion k T_surface T_melt initial_length final_length : val) : res val :=
  let* term1 := (!density * !heat_of_fusion) / (!k * (!T_surface - !T_melt)) in
  let* term2 := (!final_length ** eint 2 - !initial_length ** eint 2) / $2 in
  !term1 * !term2.
(** Lines 59-101; math.erf is a parameter. *)
Definition semi_infinite_slab_conduction (erf : R -> R) (Ts To z time rho Cp k : val) : res val :=
  let* alpha := !k / (!rho * !Cp) in
  !Ts - (!Ts - !To) * math1 erf (!z / ($4 * !alpha * !time) ** half_).
(** Lines 103-149. *)
Definition lumped_parameter (Tf To h A rho cP V time : val) : res val :=
  !Tf - (!Tf - !To) * math_exp (-(!h * !A * !time) / (!rho * !cP * !V)).
(** Lines 151-197; [n] terms 0 .. iterations. *)
Definition slab_term (x s alpha time : val) (n : nat) : res val :=
  let m := (2 * INR n + 1)%R in
  $(1 / m) * math_sin (($m * $PI * !x) / ($2 * !s)) *
    math_exp (-(($m * ($PI / $2)) ** eint 2) * ((!alpha * !time) / !s ** eint 2)).
Fixpoint sum_terms (f : nat -> res val) (n : nat) : res val :=
  match n with
  | O => $0
  | S n => sum_terms f n + f n
  end.
Definition finite_slab_conduction (Ts To x s k rho Cp time : val) (iterations : nat) : res val :=
  let* alpha := !k / (!rho * !Cp) in
  let* right_side := sum_terms (slab_term x s alpha time) (S iterations) in
  !Ts - (!Ts - !To) * ($4 / $PI) * !right_side.
(** Lines 200-251. *)
Definition slab_heat_term (alpha time s : val) (n : nat) : res val :=
  let m := (2 * INR n + 1)%R in
  $(1 / m ^ 2) * ($1 - math_exp (-(($m * ($PI / $2)) ** eint 2) * ((!alpha * !time) / !s ** eint 2))).
Definition finite_slab_total_heat (s rho cp Ts To k time area : val) (iterations : nat) : res val :=
  let* left_side := ($8 * !s * !rho * !cp * (!Ts - !To) * !area) / $(PI ^ 2) in
  let* alpha := !k / (!rho * !cp) in
  let* right_side := sum_terms (slab_heat_term alpha time s) iterations in
  !left_side * !right_side.
End Transient.

(** ** mass_transfer *)
Section Mass.
Local Open Scope py_scope.

(** steady_state_diffusion.py:9-129. *)
Definition planar_mass_transfer (D A C2 C1 thickness : val) : res val := -!D * !A * ((!C2 - !C1) / !thickness).
Definition planar_mass_flux (D C2 C1 thickness : val) : res val := -!D * ((!C2 - !C1) / !thickness).
Definition pipe_mass_transfer (D r2 r1 C2 C1 L : val) : res val :=
  $(-2) * $PI * !L * !D * ((!C2 - !C1) / math_log (!r2 / !r1)).
Definition sphere_mass_transfer (D r2 r1 C2 C1 : val) : res val :=
  $(-4) * $PI * !r1 * !r2 * !D * ((!C2 - !C1) / (!r2 - !r1)).
(** non_steady_state_diffusion.py:8-91; math.erf and math.erfc are parameters. *)
Definition semi_infinite_slab_diffusion (erf : R -> R) (Cs Co z D t : val) : res val :=
  !Cs - (!Cs - !Co) * math1 erf (!z / ($4 * !D * !t) ** half_).
Definition slab_diffusion_term (erfc : R -> R) (a z D t : val) (n : nat) : res val :=
  let m := (2 * INR n + 1)%R in
  $((-1) ^ n) * (math1 erfc (($m * !a + !z) / ($4 * !D * !t) ** half_) + math1 erfc (($m * !a - !z) / ($4 * !D * !t) ** half_)).
Definition finite_slab_diffusion (erfc : R -> R) (Cs Co a z D t : val) (iterations : nat) : res val :=
  let* right_side := sum_terms (slab_diffusion_term erfc a z D t) iterations in
  !Cs - (!Cs - !Co) * !right_side.
(** diffusion_scenarios.py:10-138; any other shape leaves the mass as it is. *)
Definition pulse_exp (distance D time : val) : res val := math_exp (-(!distance ** eint 2) / ($4 * !D * !time)).
Definition three_d_pulse_decay (initial_mass distance D time : val) (shape : string) : res val :=
  let* m := (if String.eqb shape "hemisphere" then $2 * !initial_mass
             else if String.eqb shape "cube" then $8 * !initial_mass else !initial_mass) in
  let* top := !m * pulse_exp distance D time in
  let* bottom := ($4 * $PI * !D * !time) ** eflt (Q2Qc (3 # 2)) in
  !top / !bottom.
Definition two_d_pulse_decay (initial_mass L distance D time : val) : res val :=
  let* m := !initial_mass / !L in
  let* top := !m * pulse_exp distance D time in
  let* bottom := $4 * $PI * !D * !time in
  !top / !bottom.
Definition one_d_pulse_decay (initial_mass area distance D time : val) : res val :=
  let* m := !initial_mass / !area in
  let* top := !m * pulse_exp distance D time in
  let* bottom := ($4 * $PI * !D * !time) ** half_ in
  !top / !bottom.
End Mass.

(** ** process_safety *)
Section Safety.
Local Open Scope py_scope.

(** explosions.py:6-32. *)
Definition max_vessel_pressure (material_strength wall_thickness inside_radius : val) (vessel_shape : string) : res val :=
  if String.eqb vessel_shape "cylinder" then
    (!material_strength * !wall_thickness) / (!inside_radius + $0.6 * !wall_thickness)
  else if String.eqb vessel_shape "sphere" then
    ($2 * !wall_thickness * !material_strength) / (!inside_radius + $0.2 * !wall_thickness)
  else Raise ETypeError.
(** incident_evaluation.py:4-41; 10E8 is 10 * 10^8. *)
Definition FAR (number_of_fatalities total_hours : val) : res val := (!number_of_fatalities * $1000000000) / !total_hours.
Definition OSHA_incidence_rate (relevent_number total_hours : val) : res val := (!relevent_number * $200000) / !total_hours.
(** ventilation.py:16-60. *)
Definition Qm_evaporation (M K A Psat R_ TL : val) : res val := (!M * !K * !A * !Psat) / (!R_ * !TL).
(** ventilation.py:63-153; 10E6 is 10 * 10^6. *)
Definition enclosure_concentration (Qm Rg T k Qv P M : val) : res val :=
  $10000000 * (!Qm * !Rg * !T) / (!k * !Qv * !P * !M).
Definition ppm_to_other (C_ppm Rg T P M : val) : res val :=
  !C_ppm / ($10000000 * (!Rg * !T) / (!P * !M)).
(** ventilation.py:9-13. *)
Definition K_from_standard (M : val) : res val :=
  let* c := rmap VMulti (mk_multi (MSub "MassTransferCoefficient") (0.83 : R) "cm/s") in
  let* w := rmap VMulti (mk_multi (MSub "MolecularWeight") (18 : R) "g/mol") in
  !c * (!w / !M) ** third_.
End Safety.

(** ** reactions *)
Section Reactions.
Local Open Scope py_scope.

(** reactor_design.py:7-25. *)
Definition cstr_volume (Fa0 Fa ra : val) : res val := (!Fa0 - !Fa) / -!ra.

(** reaction_parameters.py:66-75. *)
Definition arrhenius_units (order : expo) : res string :=
  if e_is order 0 then Ok "mol/L*s"
  else if e_is order 1 then Ok "s^-1"
  else
    let* c := rmap VMulti (mk_multi (MSub "Concentration") (1 : R) "mol/L") in
    let* c := !c ** esub (eint 1) order in
    let* s := rmap VUnit (mk_unit Time (1 : R) "s" (eint 1)) in
    let* c := !c / !s in
    match c with
    | VMulti m => get_unit_string (mtop m) (mbot m)
    | VUnit _ => Raise EAttributeError
    | _ => Raise EAttributeError
    end.
(** Lines 79-128.  The body is given the order and the parameters; [A] is a plain
    number or None.  MultiUnit(None, ...) is represented by the value 1: an operation
    on it raises TypeError when it comes to the values, after it has worked on the
    units. *)
Definition of_none (a : val) (r : res val) : res val :=
  match a with VNone => let* _ := r in Raise ETypeError | _ => r end.
Definition arrhenius_body (order : expo) (env extra : list (string * arg val)) : res val :=
  let Ea := param env "Ea" in let R_ := param env "R" in let T := param env "T" in let k := param env "k" in
  let* units := arrhenius_units order in
  let* a := param env "A" in
  let* A := (match a with
             | VNum x => rmap VMulti (mk_multi MMulti x units)
             | VNone => rmap VMulti (mk_multi MMulti 1%R units)
             | _ => Raise Unmodelled
             end) in
  match dict_get extra "solving_for" with
  | Some (AName s) =>
      if String.eqb s "k" then of_none a (!A * math_exp (-Ea / (R_ * T)))
      else if String.eqb s "Ea" then -math_log (of_none a (k / !A)) * R_ * T
      else if String.eqb s "T" then $1 / ((math_log (of_none a (k / !A)) * R_) / -Ea)
      else if String.eqb s "A" then k / math_exp (-Ea / R_ * T)
      else Ok VNone
  | _ => Raise EKeyError
  end.
Definition arrhenius (order : expo) (args : list (arg val)) (kw : list (string * arg val)) : res val :=
  decorated arrhenius_solvable 1 (arrhenius_sig val) (arrhenius_body order) (AVal (VNum (QcR (ev order))) :: args) kw.
End Reactions.

(** ** utility/constants.py:11-30 *)
Definition constant (x : R) (s : string) : res val := rmap VMulti (mk_multi MMulti x s).
Definition BOLTZMANS_CONSTANT := constant (1.380649 / 10 ^ 23) "m^2*kg/s^2*K".
Definition PLANCKS_CONSTANT := constant (6.62607015 / 10 ^ 34) "m^2*kg/s".
Definition RADIATION_CONSTANT := constant (5.67 / 10 ^ 8) "W/m^2*K^4".
Definition FARADAYS_CONSTANT := constant 96500 "C/mol".
Definition get_gas_constant (temperature_units volume_units pressure_units : string) (generic : bool) : res val :=
  if generic then constant 8.314 "J/mol*K"
  else if String.eqb volume_units "m^3" && String.eqb pressure_units "Pa" && String.eqb temperature_units "K" then constant 8.314 "m^3*Pa/mol*K"
  else if String.eqb volume_units "L" && String.eqb pressure_units "atm" && String.eqb temperature_units "K" then constant 0.08205 "L*atm/mol*K"
  else if String.eqb volume_units "m^3" && String.eqb pressure_units "atm" && String.eqb temperature_units "K" then constant (8.205746 / 10 ^ 5) "m^3*atm/mol*K"
  else Raise EValueError.

(** ** heat_transfer/radiation.py:7-22; the result is labelled W whatever the units
    of the arguments. *)
Definition radiative_heat_flow (area view_factor T1 T2 : val) : res val :=
  let* v := (RADIATION_CONSTANT * !area * !view_factor * (!T1 ** eint 4 - !T2 ** eint 4))%py in
  match v with
  | VUnit u => rmap VMulti (mk_multi (MSub "Power") (uv u) "W")
  | VMulti m => rmap VMulti (mk_multi (MSub "Power") (mv m) "W")
  | _ => Raise EAttributeError
  end.

(** ** mass_transfer/diffusion_coefficients.py:61-132 *)
Section Coeffs2.
Local Open Scope py_scope.
Definition stokes_einstein (T mu_b R_a : val) : res val :=
  (BOLTZMANS_CONSTANT * !T) / ($6 * $PI * !mu_b * !R_a).
Definition ionic_diffusion_coefficient (R_ T n_plus n_minus lambda_plus lambda_minus : val) : res val :=
  (!R_ * !T * ($1 / !n_plus + $1 / !n_minus)) / (FARADAYS_CONSTANT ** eint 2 * ($1 / !lambda_plus + $1 / !lambda_minus)).
(** heat_transfer/phase_changes.py:8-107, without the two prints; num_pipes is a
    number; the conversion on line 106 is not in place, so its result is
    discarded. *)
Definition condensation_transfer_coefficient (k rho g hvap num_pipes T2 T1 diameter mu : val) : res val :=
  let* t := !k ** eint 3 * !rho ** eint 2 * !g * !hvap in
  let* b := !num_pipes * (!T2 - !T1) * !diameter * !mu in
  $0.729 * ((!k ** eint 3 * !rho ** eint 2 * !g * !hvap) / (!num_pipes * (!T2 - !T1) * !diameter * !mu)) ** quarter_.
Definition flux_max_boiling (tb : tables R) (hvap rho_v rho_l surface_tension g : val) : res val :=
  let* qa_max := $0.15 * !hvap * !rho_v ** half_ * (!surface_tension * !g * (!rho_l - !rho_v)) ** quarter_ in
  match qa_max with
  | VMulti m => let* _ := multi_convert_to tb m "W/m^2" in Ok qa_max
  | VUnit u => let* _ := unit_convert_to tb u "W/m^2" in Ok qa_max
  | _ => Raise EAttributeError
  end.
End Coeffs2.
