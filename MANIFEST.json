{
 "claims": [
  {
   "property": "C01",
   "status": "proved",
   "theorems": [
    "C01_parse_exact"
   ],
   "note": "All lists of factors, names and numerals (sign, decimals, decimal exponent)."
  },
  {
   "property": "C02",
   "status": "partial",
   "theorems": [
    "C02_reject_partial",
    "C02_accept_or_raise_partial",
    "C02_refuted"
   ],
   "note": "Every string with at most one slash is read exactly as spelled or refused; strings with more slashes are taken as one half with / inside a name (refuted by m/s/s)."
  },
  {
   "property": "C03",
   "status": "proved",
   "theorems": [
    "C03_combine_exact"
   ],
   "note": "Exact for every list: net exponent of every name, size in every unit system, names unchanged, at most one nonzero entry per name."
  },
  {
   "property": "C04",
   "status": "proved",
   "theorems": [
    "C04_cancel_exact"
   ],
   "note": "Exact for every pair of halves, including repeated names, zero and negative exponents."
  },
  {
   "property": "C05",
   "status": "partial",
   "theorems": [
    "C05_prefix_exact_partial",
    "C05_registered_names",
    "C05_mile_refuted",
    "C05_micro_refuted",
    "C05_actual",
    "C05_actual_denotes",
    "C05_regular_exact",
    "C05_one_exact_iff"
   ],
   "note": "Holds for every admissible name (all registered names but mile, day, mmHg; every SI-prefixed symbol). Refuted for mile (m-ile) and for the prefix u, which the code lists but does not strip. For all names C05_actual gives the halves and the factor returned (an empty name raises IndexError), C05_actual_denotes what they denote, and C05_one_exact_iff exactly when one unit is kept."
  },
  {
   "property": "C06",
   "status": "proved",
   "theorems": [
    "C06_expand_exact"
   ],
   "note": "Termination (fuel proved sufficient), exactness in every coherent system and completeness, for every pair of halves."
  },
  {
   "property": "C07",
   "status": "partial",
   "theorems": [
    "C07_one_pass_partial",
    "C07_one_pass_refuted",
    "C07_left_exact",
    "C07_complete_iff"
   ],
   "note": "Termination and exactness for all halves; completeness only when no derived unit directly follows another (the loop deletes from the list it iterates over). Refuted in general by W*W. C07_left_exact says which derived units are left (of adjacent ones every second), C07_complete_iff that without W nothing is left exactly when no two are adjacent."
  },
  {
   "property": "C08",
   "status": "proved",
   "theorems": [
    "C08_simplify_exact"
   ],
   "note": "Termination (measure: the fuel is proved sufficient) and exactness for every pair of halves."
  },
  {
   "property": "C09",
   "status": "proved",
   "theorems": [
    "C09_mul_multi"
   ],
   "note": "All admissible names, values, exponents, subclasses, coherent systems."
  },
  {
   "property": "C10",
   "status": "proved",
   "theorems": [
    "C10_div_multi"
   ],
   "note": "Including the zero divisor."
  },
  {
   "property": "C11",
   "status": "proved",
   "theorems": [
    "C11_div_multi_unit"
   ],
   "note": "Including the zero divisor."
  },
  {
   "property": "C12",
   "status": "partial",
   "theorems": [
    "C12_mul_multi_unit_partial",
    "C12_mul_multi_unit_actual",
    "C12_mul_multi_unit_exact",
    "C12_mul_multi_unit_refuted",
    "C12_rmul"
   ],
   "note": "Correct without prefixes; in general the prefix factor is dropped (5 km/s * 1 s = 5 m): the exact result is given for all units, it is right exactly when a value is zero or the prefixes cancel, and the claim is refuted."
  },
  {
   "property": "C13",
   "status": "partial",
   "theorems": [
    "C13_div_unit_multi_partial",
    "C13_div_unit_multi_actual",
    "C13_div_unit_multi_exact",
    "C13_div_unit_multi_refuted"
   ],
   "note": "As C12: the prefix factor is dropped in Unit / MultiUnit; right exactly when a value is zero or the prefixes agree."
  },
  {
   "property": "C14",
   "status": "partial",
   "theorems": [
    "C14_mul_unit_unit_partial",
    "C14_mul_unit_unit_refuted",
    "C14_mul_unit_unit_actual",
    "C14_mul_unit_unit_exact"
   ],
   "note": "Correct for equal class and name or exponents 1; otherwise both exponents are dropped (refuted by 2 ft^2 * 3 min). The size actually returned is given for every pair of units, and the product is right in every unit system exactly when nothing was dropped."
  },
  {
   "property": "C15",
   "status": "proved",
   "theorems": [
    "C15_div_unit_unit"
   ],
   "note": "All names, exponents and classes, including the zero divisor."
  },
  {
   "property": "C16",
   "status": "partial",
   "theorems": [
    "C16_scale_partial",
    "C16_scale_div",
    "C16_scale_refuted",
    "C16_scale_exact"
   ],
   "note": "MultiUnits, division and exponent-1 Units are right; Unit * number drops the exponent (refuted), and is right exactly when the exponent is 1."
  },
  {
   "property": "C17",
   "status": "proved",
   "theorems": [
    "C17_pow",
    "C17_pow_int"
   ],
   "note": "Rational powers of positive values, whole powers of any nonzero value (nonnegative whole powers of zero)."
  },
  {
   "property": "C18",
   "status": "proved",
   "theorems": [
    "C18_rdiv",
    "C18_neg"
   ],
   "note": "Including the zero divisor."
  },
  {
   "property": "C19",
   "status": "proved",
   "theorems": [
    "C19_addsub",
    "C19_addsub_defined"
   ],
   "note": "Soundness for all operands; the sum is defined whenever class and unit agree."
  },
  {
   "property": "C20",
   "status": "proved",
   "theorems": [
    "C20_commutative",
    "C20_associative"
   ],
   "note": "MultiUnits over admissible names."
  },
  {
   "property": "C21",
   "status": "proved",
   "theorems": [
    "C21_mul_div",
    "C21_div_self"
   ],
   "note": "MultiUnits over admissible names; a/a = 1 also for Units."
  },
  {
   "property": "C22",
   "status": "partial",
   "theorems": [
    "C22_reflexive_symmetric",
    "C22_unit_exact",
    "C22_unit_sound",
    "C22_multi_sound_partial",
    "C22_multi_sound_refuted",
    "C22_multi_exact",
    "C22_transitive_partial",
    "C22_transitive_refuted",
    "C22_transitive_exact"
   ],
   "note": "Reflexive and symmetric; sound for Units and for MultiUnits without repeated names (ft*ft == ft refutes the rest); transitive except through the plain class Unit (refuted). Equality of MultiUnits and transitivity are characterised exactly."
  },
  {
   "property": "C23",
   "status": "partial",
   "theorems": [
    "C23_foreign_partial",
    "C23_foreign_refuted"
   ],
   "note": "All combinations but MultiUnit * obj and MultiUnit / obj, which return None (refuted)."
  },
  {
   "property": "C24",
   "status": "proved",
   "theorems": [
    "C24_temperature",
    "C24_there_and_back",
    "C24_third_scale"
   ],
   "note": "All four scales, all values."
  },
  {
   "property": "C25",
   "status": "partial",
   "theorems": [
    "C25_round_trip_partial",
    "C25_near_round_trip_partial",
    "C25_mile_refuted",
    "C25_lb_refuted",
    "C25_actual",
    "C25_exact"
   ],
   "note": "Exact for the names in round_names; ft, in, lb up to 1e-5 (their constants are rounded and not inverse); refuted for mile and lb. There-and-back multiplies by out_of*into for every name, which is 1 exactly for round_names."
  },
  {
   "property": "C26",
   "status": "partial",
   "theorems": [
    "C26_si_ratio_partial",
    "C26_near_si_ratio_partial",
    "C26_MPa_refuted",
    "C26_mile_refuted",
    "C26_actual",
    "C26_exact"
   ],
   "note": "Exact for all table names but MPa (factor 1e7) and mile (inverse factor wrong), both refuted; psi, ft, in, lb up to 1e-5. The result between any two names is given, with the exact errors for names outside the tables."
  },
  {
   "property": "C27",
   "status": "partial",
   "theorems": [
    "C27_power_partial",
    "C27_power_actual",
    "C27_power_exact",
    "C27_two_steps_actual",
    "C27_power_refuted",
    "C27_exponent_refuted"
   ],
   "note": "Only for value 1 or exponent 1; in general the value is raised to the power too and the object's exponent is ignored. The actual result of one and of two steps is characterised, the condition for being right is exact, and the claim refuted."
  },
  {
   "property": "C28",
   "status": "partial",
   "theorems": [
    "C28_convert_keeps_partial",
    "C28_degrees_refuted",
    "C28_coulomb_refuted",
    "C28_psi_refuted",
    "C28_exact",
    "C28_unparsed",
    "C28_right_iff"
   ],
   "note": "For halves with admissible names, degrees of exponent 1 and no psi/C after a derived unit, in every physical unit system; refuted by A*K^-1 -> A/K, which flips the sign, by J*C^2 -> J*A^2*s^2, which doubles the value, and by J*psi -> J*Pa. C28_exact gives the outcome of every conversion: what each unit is taken for, when the conversion succeeds and with which value; C28_right_iff says when the result is right."
  },
  {
   "property": "C29",
   "status": "proved",
   "theorems": [
    "C29_round_trip"
   ],
   "note": "For every conversion table; a conversion back from a zero value may raise ZeroDivisionError instead."
  },
  {
   "property": "C30",
   "status": "proved",
   "theorems": [
    "C30_path_independent"
   ],
   "note": "For every conversion table."
  },
  {
   "property": "C31",
   "status": "proved",
   "theorems": [
    "C31_refused",
    "C31_registered"
   ],
   "note": "All registered names, no other hypothesis."
  },
  {
   "property": "C32",
   "status": "partial",
   "theorems": [
    "C32_convertible_partial",
    "C32_exact",
    "C32_newton_refuted",
    "C32_square_watt_refuted"
   ],
   "note": "For the safe names (no force units, mile, day, mmHg, uL; L and acre with exponent 1); refuted by N/m^2 -> Pa and by W*W. C32_exact gives the necessary and sufficient condition for every MultiUnit and every target."
  },
  {
   "property": "C33",
   "status": "partial",
   "theorems": [
    "C33_check_unit_partial",
    "C33_check_number",
    "C33_check_multi_partial",
    "C33_exponent_refuted",
    "C33_error_refuted"
   ],
   "note": "Units are compared by name only, ignoring the exponent (refuted); a MultiUnit mismatch always raises AttributeError instead of IncorrectUnits (refuted)."
  },
  {
   "property": "C34",
   "status": "partial",
   "theorems": [
    "C34_others_unchanged",
    "C34_from_standard_partial",
    "C34_from_existing_partial",
    "C34_from_existing_actual",
    "C34_offset_refuted",
    "C34_pressure_refuted",
    "C34_chain_refuted"
   ],
   "note": "Frame property for every sequence of registrations; the new unit converts consistently if registered from the standard unit, or with linear functions from another; refuted for affine functions, pressures and chained registrations. What a unit registered from any existing one converts to is given for every pair of functions."
  },
  {
   "property": "C35",
   "status": "proved",
   "theorems": [
    "C35_unchanged",
    "C35_reachable"
   ],
   "note": "On the heap model (references, shared lists, deep copies), which is proved to compute what the model on values does."
  },
  {
   "property": "C36",
   "status": "partial",
   "theorems": [
    "C36_built_partial",
    "C36_exactly",
    "C36_default_refuted",
    "C36_scaled_refuted"
   ],
   "note": "Holds for objects built from unit strings. Exact characterisation for arithmetic: independent unless the result only has another value (scaled, negated, added: refuted). Refuted for the shared default halves."
  },
  {
   "property": "C37",
   "status": "partial",
   "theorems": [
    "C37_display_exact_partial",
    "C37_display_unambiguous",
    "C37_decimals_lost",
    "C37_refuted"
   ],
   "note": "Exact, and unambiguous, for whole exponents and those whose first decimal is not 0; exactly the other exponents lose their decimals (2.05 shown as 2)."
  },
  {
   "property": "C38",
   "status": "partial",
   "theorems": [
    "C38_dispatch_partial",
    "C38_runs_only_with_right_count",
    "C38_keyword_order_refuted",
    "C38_solvable_call_refuted",
    "C38_no_default_refuted",
    "C38_library_functions"
   ],
   "note": "Full dispatch (any number of unknowns) when keyword arguments follow the positional ones in parameter order; in any order the body runs only with the right number of missing arguments, but may be told to solve for the wrong one or be refused (refuted); functions without defaults fail with TypeError (refuted)."
  },
  {
   "property": "C39",
   "status": "partial",
   "theorems": [
    "C39_heat_back_partial",
    "C39_flux_back_partial",
    "C39_heat_units",
    "C39_flux_units",
    "C39_heat_quantity",
    "C39_heat_actual",
    "C39_prefix_refuted"
   ],
   "note": "Without SI prefixes (refuted with them: a 310 K wall comes back as 1300 K when the thickness is given as 100 cm); in consistent units every call succeeds. With prefixes the heat flow is off by those of k and A, exactly."
  },
  {
   "property": "C40",
   "status": "partial",
   "theorems": [
    "C40_pipe",
    "C40_pipe_units",
    "C40_sphere_partial",
    "C40_sphere_units",
    "C40_sphere_conductivity_refuted",
    "C40_sphere_ignores"
   ],
   "note": "Pipe: all units, prefixed ones included. Sphere: zero and sign, all units; proportionality is refuted, sphere_heat gives the same answer for all conductivities."
  },
  {
   "property": "C41",
   "status": "partial",
   "theorems": [
    "C41_row_partial",
    "C41_between",
    "C41_continuous",
    "C41_outside",
    "C41_range_refuted",
    "C41_boiling_row_refuted"
   ],
   "note": "From 275 K to 1345 K: answers, table rows, interpolation, 300 per kelvin Lipschitz continuity, refusal outside. Refuted: the table goes on above 1345 K but is refused, and the row at the boiling point 373.12 K is not returned."
  },
  {
   "property": "C42",
   "status": "partial",
   "theorems": [
    "C42_phase_partial",
    "C42_phase_refuted"
   ],
   "note": "Liquid up to 365 K, vapor above boiling; between 365 K and the boiling point liquid water is reported as vapor (refuted)."
  },
  {
   "property": "C43",
   "status": "partial",
   "theorems": [
    "C43_counts_partial",
    "C43_long_subscript_refuted",
    "C43_bare_group_refuted",
    "C43_empty_group",
    "C43_two_groups_refuted",
    "C43_nested_refuted",
    "C43_any_groups",
    "C43_right_exact",
    "C43_every_formula"
   ],
   "note": "Formulas with at most one group whose subscript is one digit: the dictionary holds every element once with its count. Refuted: longer group subscripts always count too few (general), bare groups are refused (general), two groups and nested groups. C43_any_groups gives what is counted for every formula (any number of groups, nesting and subscripts) and C43_right_exact when that is right. C43_empty_group: a group with nothing in it counts for nothing, whatever its subscript."
  },
  {
   "property": "C44",
   "status": "partial",
   "theorems": [
    "C44_conserved_partial",
    "C44_printed",
    "C44_conserved_refuted"
   ],
   "note": "Solver accurate to 5e-10 for this reaction, coefficients at most 1000, formulas as in C43; any order of the element set. Printed coefficients are right exactly when the coefficients before the last have no common factor; NO2 -> N2O4 refutes the rest. The float divisions on lines 52 and 202 are rounded to binary64 in the model."
  },
  {
   "property": "C45",
   "status": "partial",
   "theorems": [
    "C45_rk_partial",
    "C45_rk_fixed_partial",
    "C45_srk_partial",
    "C45_srk_fixed_partial",
    "C45_vdw_refuted",
    "C45_vdw_never",
    "C45_vdw_actual",
    "C45_pr_refuted",
    "C45_pr_never",
    "C45_pr_actual",
    "C45_other_state",
    "C45_celsius_refuted"
   ],
   "note": "Redlich-Kwong and Soave, limits and fixed points, both states, absolute temperatures in one unit. Refuted for van der Waals (z(z+b) in place of z^2: no limit is ever a root), Peng-Robinson (Redlich-Kwong's map after the first step: no limit is ever a root) and Celsius temperatures. The law whose compressibility the two wrong functions settle on is given; any other state raises."
  },
  {
   "property": "C46",
   "status": "partial",
   "theorems": [
    "C46_reynolds_quantity",
    "C46_reynolds_units",
    "C46_biot_quantity",
    "C46_biot_units",
    "C46_prandtl_quantity",
    "C46_prandtl_units",
    "C46_schmidt_quantity",
    "C46_schmidt_units",
    "C46_reynolds_actual",
    "C46_biot_actual",
    "C46_prandtl_actual",
    "C46_schmidt_actual",
    "C46_unit_independent_partial",
    "C46_prefix_refuted",
    "C46_mixed_refuted",
    "C46_newton_refuted"
   ],
   "note": "Documented quantity for unprefixed arguments; plain number in the listed consistent systems; refuted for prefixed (100 cm), mixed (ft among metres) and N*s/m^2 arguments. With prefixes the factor by which each group is off is given; the Prandtl number of MultiUnits is always right."
  },
  {
   "property": "C47",
   "status": "partial",
   "theorems": [
    "C47_vessel_units",
    "C47_vessel_value_partial",
    "C47_vessel_shape",
    "C47_osha",
    "C47_far",
    "C47_far_refuted",
    "C47_ventilation_units",
    "C47_ventilation_refuted",
    "C47_ventilation_back"
   ],
   "note": "Vessel and OSHA formulas as documented; FAR is ten times the documented rate and the ventilation functions use 10^7 instead of 10^6 (refuted); the two ventilation functions are inverse to each other."
  },
  {
   "property": "C48",
   "status": "partial",
   "theorems": [
    "C48_k_and_Ea_partial",
    "C48_T_refuted",
    "C48_A_refuted",
    "C48_order2_refuted",
    "C48_any_order_back",
    "C48_any_order_T_refuted",
    "C48_any_order_A_refuted",
    "C48_missing_A",
    "C48_order_units"
   ],
   "note": "Orders 0 and 1, solving for k and Ea; solving for T or A raises TypeError, order 2 cannot be solved for Ea with a k in L/mol*s (refuted). For every order for which the function finds units for A (C48_any_order_*; such orders are listed by C48_order_units) k is right, Ea is recovered from that k, and T and A raise TypeError. C48_missing_A: with A None and another parameter to be solved for (keywords out of order) the call raises."
  },
  {
   "property": "C49",
   "status": "partial",
   "theorems": [
    "C49_countercurrent_partial",
    "C49_equal_refuted",
    "C49_actual",
    "C49_cocurrent_exact",
    "C49_cocurrent_refuted"
   ],
   "note": "Countercurrent, any temperature unit; equal differences divide by zero and the cocurrent branch uses T0B itself as a difference (refuted). The answer or error is given for all temperatures in both arrangements, and the cocurrent answer is right exactly when T0A - T0B is T0B."
  },
  {
   "property": "C50",
   "status": "proved",
   "theorems": [
    "C50_bounds",
    "C50_monotone",
    "C50_limit",
    "C50_units"
   ],
   "note": "All units, prefixed ones included; success and the documented value in the listed consistent systems."
  },
  {
   "property": "C51",
   "status": "proved",
   "theorems": [
    "C51_planar",
    "C51_planar_flux",
    "C51_pipe",
    "C51_sphere",
    "C51_units"
   ],
   "note": "All units, prefixed ones included; success in the listed consistent systems."
  },
  {
   "property": "C52",
   "status": "partial",
   "theorems": [
    "C52_registry_partial",
    "C52_registry_refuted",
    "C52_names",
    "C52_prefixed"
   ],
   "note": "Exact characterisation: 56 of the 82 registered names convert, the 26 in missing_names raise for every value. C52_prefixed: an SI prefix on an SI symbol has a class exactly for m, g, J, Pa, N and L."
  },
  {
   "property": "C53",
   "status": "partial",
   "theorems": [
    "C53_sizes",
    "C53_agree",
    "C53_half_unit_refuted",
    "C53_other_units"
   ],
   "note": "Sizes in SI units; agreement within one unit of the last printed place; half a unit is refuted."
  },
  {
   "property": "C54",
   "status": "proved",
   "theorems": [
    "C54_expressions_stay_well_formed",
    "C54_expression_errors",
    "C54_mul_defined",
    "C54_div_defined"
   ],
   "note": "Induction over expressions."
  },
  {
   "property": "C55",
   "status": "partial",
   "theorems": [
    "C55_add_number_partial",
    "C55_add_number_refuted",
    "C55_add_number_exact"
   ],
   "note": "Exponent 1 only; the exponent is dropped otherwise (refuted). Right exactly when the exponent is 1."
  },
  {
   "property": "C56",
   "status": "partial",
   "theorems": [
    "C56_expressions_denote_partial",
    "C56_expressions_denote_refuted",
    "C56_expressions_actual",
    "C56_expressions_exact"
   ],
   "note": "Induction over expressions, outside the operand pairs for which C12-C14, C16, C55 are refuted. For all expressions the quantity of the value is given, with what each operator loses; without sums it is the right one divided by a single factor, hence right exactly when zero or when the factor is 1."
  },
  {
   "property": "C57",
   "status": "proved",
   "theorems": [
    "C57_text_roundtrip",
    "C57_float_exact"
   ],
   "note": "Numerals of any length; str() for the modelled range."
  },
  {
   "property": "C58",
   "status": "partial",
   "theorems": [
    "C58_redisplay_partial",
    "C58_refuted",
    "C58_exact"
   ],
   "note": "False in general (mol / L * s). C58_exact says which units are read back: none, one, or one over one, without exponents."
  },
  {
   "property": "C59",
   "status": "partial",
   "theorems": [
    "C59_rest_partial",
    "C59_exchanged_refuted",
    "C59_label_refuted"
   ],
   "note": "Phase and nine properties carry the reported value in the right unit; temperature and pressure are exchanged (refuted at every temperature)."
  },
  {
   "property": "C60",
   "status": "proved",
   "theorems": [
    "C60_rk_gas",
    "C60_srk_gas"
   ],
   "note": "Error at most (4k)^(n+1)/2 after n iterations."
  },
  {
   "property": "C61",
   "status": "proved",
   "theorems": [
    "C61_mixed"
   ],
   "note": "All four functions."
  },
  {
   "property": "C62",
   "status": "partial",
   "theorems": [
    "C62_elements_partial",
    "C62_parentheses_refuted",
    "C62_no_arrow"
   ],
   "note": "Different elements: refused with TypeError, since ImproperChemicalEquation takes no arguments; unmatched parentheses are not refused (refuted); no arrow gives ValueError."
  },
  {
   "property": "C63",
   "status": "proved",
   "theorems": [
    "C63_closest",
    "C63_recovered",
    "C63_tie"
   ],
   "note": "The algorithm of Fraction.limit_denominator is modelled. C63_tie: of two fractions equally close the simpler one."
  },
  {
   "property": "C64",
   "status": "proved",
   "theorems": [
    "C64_multi",
    "C64_unit"
   ],
   "note": "Proved."
  },
  {
   "property": "C65",
   "status": "partial",
   "theorems": [
    "C65_multi_partial",
    "C65_unit_partial",
    "C65_same_refuted"
   ],
   "note": "Proved except for a Unit converted to its own unit, which is returned itself."
  },
  {
   "property": "C66",
   "status": "proved",
   "theorems": [
    "C66_units",
    "C66_quantity",
    "C66_increasing",
    "C66_positive_refuted",
    "C66_pipe_laminar",
    "C66_short_pipe",
    "C66_wall_viscosity",
    "C66_laminar",
    "C66_laminar_celsius",
    "C66_laminar_celsius_refuted"
   ],
   "note": "The statement is proved as worded; it includes what the _refuted theorems show. Proved for the listed unit texts, and as a quantity for all admissible units. Positivity and temperatures in C (laminar) refuted."
  },
  {
   "property": "C67",
   "status": "proved",
   "theorems": [
    "C67_gretz",
    "C67_grashof",
    "C67_beta",
    "C67_beta_grashof",
    "C67_beta_celsius",
    "C67_grashof_text",
    "C67_grashof_text_refuted"
   ],
   "note": "The statement is proved as worded; it includes what the _refuted theorems show. Proved; the text 1/K for the expansion coefficient refuted."
  },
  {
   "property": "C68",
   "status": "proved",
   "theorems": [
    "C68_semi_infinite",
    "C68_finite",
    "C68_surface",
    "C68_mirror",
    "C68_heat",
    "C68_heat_start",
    "C68_heat_grows",
    "C68_heat_terms",
    "C68_melting",
    "C68_semi_infinite_diffusion",
    "C68_finite_diffusion",
    "C68_diffusion_mirror"
   ],
   "note": "Proved; the error function is an arbitrary function."
  },
  {
   "property": "C69",
   "status": "proved",
   "theorems": [
    "C69_pulses",
    "C69_prefix",
    "C69_prefix_refuted"
   ],
   "note": "The statement is proved as worded; it includes what the _refuted theorems show. Proved for consistent units; refuted for a prefixed diffusion coefficient."
  },
  {
   "property": "C70",
   "status": "proved",
   "theorems": [
    "C70_value",
    "C70_si",
    "C70_balance",
    "C70_label",
    "C70_label_refuted"
   ],
   "note": "The statement is proved as worded; it includes what the _refuted theorems show. Proved for m^2 and K; refuted for other units of area."
  },
  {
   "property": "C71",
   "status": "proved",
   "theorems": [
    "C71_stokes_einstein",
    "C71_ionic",
    "C71_ionic_cm",
    "C71_ionic_docstring",
    "C71_ionic_docstring_refuted",
    "C71_fuller",
    "C71_fuller_mixed",
    "C71_fuller_mixed_refuted",
    "C71_fuller_temperature",
    "C71_fuller_pressure",
    "C71_fuller_pressure_refuted",
    "C71_wilke",
    "C71_wilke_centipoise",
    "C71_wilke_poise",
    "C71_wilke_poise_refuted",
    "C71_wilke_temperature",
    "C71_fuller_checked"
   ],
   "note": "The statement is proved as worded; it includes what the _refuted theorems show. Proved for the documented units and plain numbers; mixtures of objects and numbers, and the docstring's unit of conductivity, refuted. C71_fuller_checked: fullers returns only when every unit object it is given has the documented unit."
  },
  {
   "property": "C72",
   "status": "proved",
   "theorems": [
    "C72_condensation",
    "C72_tubes",
    "C72_boiling",
    "C72_boiling_unit_refuted",
    "C72_boiling_newton",
    "C72_boiling_newton_refuted"
   ],
   "note": "The statement is proved as worded; it includes what the _refuted theorems show. Proved; the conversion to W/m^2 and surface tensions in N/m refuted."
  },
  {
   "property": "C73",
   "status": "proved",
   "theorems": [
    "C73_baffle_area",
    "C73_cross_area",
    "C73_area_refuted",
    "C73_mass_velocity",
    "C73_coefficient",
    "C73_full",
    "C73_full_refuted",
    "C73_z_factor",
    "C73_nh_factor",
    "C73_equivalent_diameter"
   ],
   "note": "The statement is proved as worded; it includes what the _refuted theorems show. Proved; that the areas are areas and the full calculation a heat transfer coefficient is refuted."
  },
  {
   "property": "C74",
   "status": "proved",
   "theorems": [
    "C74_r_squared",
    "C74_unique",
    "C74_order",
    "C74_best",
    "C74_single",
    "C74_first",
    "C74_first_order",
    "C74_recognised_refuted",
    "C74_negative_refuted",
    "C74_step_zero",
    "C74_errors",
    "C74_lengths",
    "C74_answers",
    "C74_refused_exact",
    "C74_zero",
    "C74_zero_back"
   ],
   "note": "The statement is proved as worded; it includes what the _refuted theorems show. Proved with exact sums in place of floats; recognition of arbitrary and of negative orders refuted. C74_refused_exact says which data are refused with ValueError, C74_zero what becomes of a zero (infinity in one round, zero again in the next)."
  },
  {
   "property": "C75",
   "status": "proved",
   "theorems": [
    "C75_cstr",
    "C75_K",
    "C75_evaporation"
   ],
   "note": "Proved."
  },
  {
   "property": "C76",
   "status": "proved",
   "theorems": [
    "C76_products",
    "C76_sums",
    "C76_bound"
   ],
   "note": "Generic in the arithmetic; rounding to 53 bits is shown to be an instance. No overflow or underflow."
  },
  {
   "property": "C77",
   "status": "proved",
   "theorems": [
    "C77_multi",
    "C77_unit",
    "C77_temperature"
   ],
   "note": "Generic in the arithmetic. Without overflow or underflow."
  },
  {
   "property": "C78",
   "status": "partial",
   "theorems": [
    "C78_close_partial",
    "C78_multi_refuted",
    "C78_temperature_refuted"
   ],
   "note": "Closeness proved; equality of floats refuted in binary64 by 7 m/s -> km/hr -> m/s and 0.1 C -> K -> C."
  },
  {
   "property": "C79",
   "status": "proved",
   "theorems": [
    "C79_never_solves",
    "C79_two_missing",
    "C79_solved_refuted",
    "C79_degenerate_refuted"
   ],
   "note": "The statement is proved as worded; it includes what the _refuted theorems show. Proved for all calls; that missing parameters are solved for and that the degenerate pair is refused is refuted."
  },
  {
   "property": "C80",
   "status": "partial",
   "theorems": [
    "C80_rounding_exact",
    "C80_rounding_near",
    "C80_model",
    "C80_mul_partial",
    "C80_div_partial",
    "C80_pow_partial",
    "C80_everyday",
    "C80_decimals_refuted",
    "C80_powers_refuted",
    "C80_roots_partial",
    "C80_roots_refuted"
   ],
   "note": "Proved for modest exponents; refuted for decimal exponents (s^0.1 * s^0.2 / s^0.3) and the 49th root. Infinities are not modelled."
  },
  {
   "property": "C81",
   "status": "proved",
   "theorems": [
    "C81_total",
    "C81_floats"
   ],
   "note": "Proved."
  },
  {
   "property": "C82",
   "status": "partial",
   "theorems": [
    "C82_parse",
    "C82_build",
    "C82_model",
    "C82_unit",
    "C82_multi_partial",
    "C82_refused_refuted",
    "C82_accepted_refuted"
   ],
   "note": "Proved for exponents that fit; refuted for decimals: s^0.1*s^0.2 is not convertible to s^0.3, but to s^0.30000000000000004."
  },
  {
   "property": "C83",
   "status": "proved",
   "theorems": [
    "C83_products",
    "C83_sums",
    "C83_multi",
    "C83_unit",
    "C83_temperature",
    "C83_overflow",
    "C83_underflow"
   ],
   "note": "Proved. x ** q is any function accurate to a given error for the exponents used; the one that rounds whole powers correctly is shown to be such. C83_overflow and C83_underflow show that the condition on sizes is needed."
  },
  {
   "property": "C84",
   "status": "proved",
   "theorems": [
    "C84_float",
    "C84_written_back",
    "C84_sixteen_refuted",
    "C84_subnormal_refuted",
    "C84_exponent",
    "C84_number",
    "C84_unit",
    "C84_multi",
    "C84_unit_prints",
    "C84_multi_prints",
    "C84_unit_text",
    "C84_multi_text",
    "C84_mixed_text",
    "C84_unit_quantity",
    "C84_multi_quantity",
    "C84_mixed_quantity",
    "C84_names",
    "C84_base",
    "C84_unit_BTU",
    "C84_multi_BTU",
    "C84_exponent_refuted",
    "C84_class_refuted"
   ],
   "note": "The statement is proved as worded; it includes what the _refuted theorems show. Proved, with CPython's float repr modelled as its documented result (shortest decimal that is read back, nearest of those, even last digit if two are as near). A decimal of at most 15 digits in Python's layout is printed as written; false for 16 digits and subnormal numbers. The text of an exponent is that of the nearest float. Refuted for exponents whose first decimal is 0 (m^2.05 prints as m^2) and for the class."
  },
  {
   "property": "C85",
   "status": "proved",
   "theorems": [
    "C85_sets",
    "C85_refuted"
   ],
   "note": "The statement is proved as worded; it includes what the _refuted theorems show. Proved, hash collisions of different texts aside; that equal objects have equal hashes is refuted."
  },
  {
   "property": "C86",
   "status": "proved",
   "theorems": [
    "C86_members",
    "C86_count",
    "C86_distinct",
    "C86_positions",
    "C86_order",
    "C86_parentheses",
    "C86_refuses"
   ],
   "note": "Proved. _check_valid_parenthese is named on line 135 of balance.py but not called, so no equation is refused by it."
  },
  {
   "property": "C87",
   "status": "proved",
   "theorems": [
    "C12_mul_multi_unit_actual",
    "C12_mul_multi_unit_exact",
    "C13_div_unit_multi_actual",
    "C13_div_unit_multi_exact",
    "C14_mul_unit_unit_actual",
    "C14_mul_unit_unit_exact",
    "C16_scale_exact",
    "C55_add_number_exact",
    "C56_expressions_actual",
    "C56_expressions_exact"
   ],
   "note": "Proved. The theorems keep the numbers of the properties they make exact (C12-C14, C16, C55, C56)."
  },
  {
   "property": "C88",
   "status": "proved",
   "theorems": [
    "C05_actual",
    "C05_actual_denotes",
    "C05_regular_exact",
    "C05_one_exact_iff"
   ],
   "note": "Proved. The theorems make C05 exact."
  },
  {
   "property": "C89",
   "status": "proved",
   "theorems": [
    "C07_left_exact",
    "C07_complete_iff"
   ],
   "note": "Proved. The theorems make C07 exact."
  },
  {
   "property": "C90",
   "status": "proved",
   "theorems": [
    "C25_actual",
    "C25_exact",
    "C26_actual",
    "C26_exact",
    "C27_power_actual",
    "C27_power_exact",
    "C27_two_steps_actual",
    "C34_from_existing_actual"
   ],
   "note": "Proved. The theorems make C25-C27 and C34 exact."
  },
  {
   "property": "C91",
   "status": "proved",
   "theorems": [
    "C22_unit_exact",
    "C22_multi_exact",
    "C22_reflexive_symmetric",
    "C22_transitive_exact"
   ],
   "note": "Proved. The theorems make C22 exact."
  },
  {
   "property": "C92",
   "status": "proved",
   "theorems": [
    "C43_any_groups",
    "C43_every_formula",
    "C43_right_exact"
   ],
   "note": "Proved. The theorems make C43 exact; formulas without groups are in C43."
  },
  {
   "property": "C93",
   "status": "proved",
   "theorems": [
    "C58_exact",
    "C37_display_unambiguous",
    "C37_decimals_lost"
   ],
   "note": "Proved. The theorems make C37 and C58 exact."
  },
  {
   "property": "C94",
   "status": "proved",
   "theorems": [
    "C49_actual",
    "C49_cocurrent_exact",
    "C45_vdw_actual",
    "C45_vdw_never",
    "C45_pr_actual",
    "C45_pr_never",
    "C45_other_state"
   ],
   "note": "Proved. The theorems make C45 and C49 exact."
  },
  {
   "property": "C95",
   "status": "proved",
   "theorems": [
    "C39_heat_actual",
    "C46_reynolds_actual",
    "C46_biot_actual",
    "C46_prandtl_actual",
    "C46_schmidt_actual"
   ],
   "note": "Proved, outside the two steps that the hypotheses name (a factor may not simplify to a single unit). The theorems make C39 and C46 exact."
  },
  {
   "property": "C96",
   "status": "proved",
   "theorems": [
    "C36_exactly"
   ],
   "note": "Proved. The theorem makes C36 exact."
  },
  {
   "property": "C97",
   "status": "proved",
   "theorems": [
    "C97_any_order",
    "C97_same_count",
    "C97_right_iff"
   ],
   "note": "Proved for functions whose defaults are all the same value, as the four decorated functions of the library; makes C38 exact."
  },
  {
   "property": "C98",
   "status": "proved",
   "theorems": [
    "C98_heat_T2",
    "C98_heat_T1",
    "C98_heat_thickness",
    "C98_flux",
    "C98_flux_T2",
    "C98_flux_T1",
    "C98_flux_thickness"
   ],
   "note": "Proved; the factors are those of C56. The heat flow itself is in C95."
  },
  {
   "property": "C99",
   "status": "proved",
   "theorems": [
    "C99_any",
    "C99_bound",
    "C99_relative_refuted",
    "C99_heat",
    "C99_flux",
    "C99_mass",
    "C99_grashof",
    "C99_groups"
   ],
   "note": "The statement is proved as worded; it includes what the _refuted theorems show. Proved; extends C76 to expressions in which values cancel. C99_relative_refuted shows that no bound relative to the result holds."
  },
  {
   "property": "C100",
   "status": "proved",
   "theorems": [
    "C100_operations",
    "C100_any",
    "C100_heat",
    "C100_flux",
    "C100_mass",
    "C100_grashof",
    "C100_lost"
   ],
   "note": "Proved; extends C83 to expressions in which values cancel. x ** q is any function accurate on the powers allowed (C83); C100_lost shows that no bound relative to the result holds."
  },
  {
   "property": "C101",
   "status": "proved",
   "theorems": [
    "C101_shared_whole",
    "C101_append",
    "C101_combine",
    "C101_unseen"
   ],
   "note": "Proved for programs that build from strings or default halves, calculate, convert, append to a top half and combine it in place."
  },
  {
   "property": "C102",
   "status": "proved",
   "theorems": [
    "C102_error",
    "C102_kinds"
   ],
   "note": "Proved; with C28_exact every conversion to a parsed target is described, results and errors."
  },
  {
   "property": "C103",
   "status": "proved",
   "theorems": [
    "C103_rows",
    "C103_close",
    "C103_outside"
   ],
   "note": "Proved; the bound is dominated by the step from liquid to vapour, where neighbouring rows differ by a factor of 1622."
  },
  {
   "property": "C104",
   "status": "proved",
   "theorems": [
    "C104_rk_liquid",
    "C104_rk_vapor",
    "C104_srk_liquid",
    "C104_srk_vapor",
    "C104_vdw_liquid",
    "C104_vdw_vapor",
    "C104_pr_liquid",
    "C104_rk_liquid_rate",
    "C104_srk_liquid_rate",
    "C104_vdw_liquid_rate",
    "C104_pr_liquid_rate",
    "C104_vdw_vapor_rate",
    "C104_pr_vapor_rate"
   ],
   "note": "Climbing and descending sequences between roots; contraction for the rates. Van der Waals and Peng-Robinson settle on roots of the equations they iterate, which are not theirs (C45)."
  },
  {
   "property": "C105",
   "status": "proved",
   "theorems": [
    "C105_rk_vapor",
    "C105_vdw_vapor",
    "C105_rk_liquid",
    "C105_vdw_liquid",
    "C105_srk_vapor",
    "C105_srk_liquid",
    "C105_pr_liquid",
    "C105_pr_vapor"
   ],
   "note": "All four functions and both states. The first Peng-Robinson step computes (1 + beta) - 1, which rounding may turn into 0; the step after it lands in [1/2, 2] either way (C105_pr_vapor). The model of C45 run with binary64 operations. C105_powers and C105_halves give power functions with the accuracy asked for."
  },
  {
   "property": "C106",
   "status": "partial",
   "theorems": [
    "C106_values",
    "C106_gas",
    "C106_gas_digits_refuted",
    "C106_product",
    "C106_per_molecule_partial",
    "C106_molecules_exact",
    "C106_molecules_refuted",
    "C106_count_refuted"
   ],
   "note": "The values, the product k N_A and molar quantities over N_A are right. Refuted: an amount times N_A keeps the unit mol^2 (right exactly when the amount is 0 or the mole counts as 1), a number divided by N_A raises TypeError, and a gas constant is off by more than a unit of its last digit."
  },
  {
   "property": "C107",
   "status": "proved",
   "theorems": [
    "C107_any",
    "C107_conduction",
    "C107_diffusion",
    "C107_arrhenius",
    "C107_rate",
    "C107_rate_uniform_refuted",
    "C107_lumped",
    "C107_half_space",
    "C107_half_space_mass",
    "C107_log_mean",
    "C107_pulse_three",
    "C107_pulse_two",
    "C107_pulse_one",
    "C107_pulse_si",
    "C107_pipe",
    "C107_pipe_mass",
    "C107_pipe_si"
   ],
   "note": "The statement is proved as worded; it includes what the _refuted theorems show. C107_any bounds any formula by the error carried along; C107_conduction, C107_diffusion and C107_arrhenius show that the formulas are the library's; the closed forms are C107_rate, C107_lumped, C107_half_space, C107_half_space_mass, C107_log_mean, C107_pulse_three, _two, _one and C107_pipe, C107_pipe_mass (C107_pulse_si and C107_pipe_si in SI units). C107_rate_uniform_refuted: the exponent has to be in the bound of the rate constant."
  },
  {
   "property": "C108",
   "status": "proved",
   "theorems": [
    "C108_local",
    "C108_same",
    "C108_lumped",
    "C108_slab",
    "C108_heat",
    "C108_three",
    "C108_two",
    "C108_one",
    "C108_rate",
    "C108_rate_refuted",
    "C108_rate_range",
    "C108_lumped_range",
    "C108_lumped_underflow",
    "C108_pulse_range"
   ],
   "note": "The statement is proved as worded; it includes what the _refuted theorems show. C108_local and C108_same are about any formula; C108_rate_refuted shows that the activation energy must not be negative; C108_lumped_underflow allows an exp that underflows."
  },
  {
   "property": "C109",
   "status": "partial",
   "theorems": [
    "C109_equal_partial",
    "C109_text",
    "C109_mul",
    "C109_div",
    "C109_pow",
    "C109_floats",
    "C109_mixed",
    "C109_int_refuted",
    "C109_hundred_refuted"
   ],
   "note": "Holds for operands with float exponents, which texts give and products, quotients and powers keep (C109_text, C109_mul, C109_div, C109_pow), unless an exponent of the result is a multiple of 100. Refuted: 3 kg * (2 m * 2 m) is not == 12 kg*m^2, since the exponent of m is the int 2, and J^50 squared is not == J^100. C109_mixed says when an exponent is a float after combining."
  },
  {
   "property": "C110",
   "status": "proved",
   "theorems": [
    "C110_ignored",
    "C110_printed",
    "C110_kept",
    "C110_again"
   ],
   "note": "The docstring says that existing coefficients are ignored; C110_ignored for all formulas and any solver. C110_printed gives the text, C110_kept that it is never the text of the balanced equation when there was a number, C110_again balances the printed text once more."
  },
  {
   "property": "C111",
   "status": "partial",
   "theorems": [
    "C111_around_partial",
    "C111_within_refuted"
   ],
   "note": "Holds for blanks around the formulas, none or any number of spaces, tabs and line ends (C111_around_partial). Refuted within a formula: H 2 is read as H."
  },
  {
   "property": "C112",
   "status": "partial",
   "theorems": [
    "C112_around_partial",
    "C112_star_refuted",
    "C112_division_refuted"
   ],
   "note": "Holds for blanks around the whole, around the slash and around the number after ^ (C112_around_partial). Refuted around a star, for all factors: the blanks become part of the names (C112_star_refuted), which then do not cancel and may lose a prefix (C112_division_refuted)."
  },
  {
   "property": "C113",
   "status": "partial",
   "theorems": [
    "C113_text",
    "C113_equal",
    "C113_mul",
    "C113_div",
    "C113_convert_partial",
    "C113_sum_exact",
    "C113_sum_refuted",
    "C113_convert_refuted"
   ],
   "note": "Holds for equality, the quantity, products, quotients, and for conversions in which no unit is opened, source and target both reordered (C113_convert_partial). Refuted for sums and differences, which compare the lists in order (C113_sum_exact says when they are accepted), and for conversions with opened units: 3 W*Pa converts to W*Pa, the equal 3 Pa*W raises KeyError."
  },
  {
   "property": "C114",
   "status": "partial",
   "theorems": [
    "C114_order_partial",
    "C114_exact",
    "C114_order_refuted"
   ],
   "note": "Holds for every order in which the coefficients before the last have greatest common divisor 1; in every other order the printed equation does not balance (C114_exact). Refuted: H2O2 -> O2 + H2O is balanced, H2O2 -> H2O + O2 gives 1.0 H2O2 -> 1.0 H2O + 0.0 O2."
  },
  {
   "property": "C115",
   "status": "partial",
   "theorems": [
    "C115_quantity",
    "C115_mul",
    "C115_convert_partial",
    "C115_target_partial",
    "C115_sum_exact",
    "C115_slash_refuted",
    "C115_square_refuted",
    "C115_degree_refuted"
   ],
   "note": "The quantity and products agree for all spellings; conversions agree for all targets when no temperature, litre, acre or opened unit occurs (C115_convert_partial for the source, C115_target_partial for the target). Refuted for equality and sums (m/s and m*s^-1, m*m/s and m^2/s), and for conversions with temperatures: 5 A/K converts to 5 A/K, 5 A*K^-1 to -5 A/K."
  },
  {
   "property": "C116",
   "status": "partial",
   "theorems": [
    "C116_left_partial",
    "C116_right_partial",
    "C116_div",
    "C116_clash",
    "C116_classes_refuted"
   ],
   "note": "Quotients distribute over all sums (C116_div). Products do unless two Units of different classes are added and the factor is a Unit of the same name and of one of their classes; then the products can never be added (C116_clash). Refuted: Unit(1, 'm') + Length(2, 'm') is accepted, but the products of the two with Length(3, 'm') cannot be added."
  },
  {
   "property": "C117",
   "status": "partial",
   "theorems": [
    "C117_mul",
    "C117_div",
    "C117_add",
    "C117_sub",
    "C117_neg",
    "C117_pow",
    "C117_convert",
    "C117_unit_convert",
    "C117_expr",
    "C117_equal_partial",
    "C117_equal_refuted"
   ],
   "note": "Holds of *, /, +, -, ** and negation and of conversions, for every number type; holds of == of Units. Refuted for == of MultiUnits, which hashes the texts of the units, 2 and 2.0 apart (C109)."
  },
  {
   "property": "C118",
   "status": "proved",
   "theorems": [
    "C118_expr",
    "C118_convert",
    "C118_unit_convert",
    "C118_mul",
    "C118_sum",
    "C118_neg",
    "C118_div",
    "C118_accepted"
   ],
   "note": "C118_expr, C118_convert and C118_unit_convert compare executions over two number types; C118_mul, C118_sum, C118_neg, C118_div and C118_accepted say which exceptions are raised within one. Powers may be refused for some numbers only (0 ** -1)."
  },
  {
   "property": "C119",
   "status": "partial",
   "theorems": [
    "C119_multi",
    "C119_scale",
    "C119_div",
    "C119_neg",
    "C119_unit_partial",
    "C119_temperature",
    "C119_degrees_refuted",
    "C119_squares"
   ],
   "note": "Proved for MultiUnits with any tables and targets, and for the tabulated Units of exponent 1. Refuted for temperatures: 20 C + 30 C converted to K is 323.15 K, but the sum of the converted terms is 596.3 K; C119_temperature says it holds exactly when both scales are the same or both start at absolute zero. Fails for squares too, whose values are squared (C27): C119_squares says exactly when the two orders agree. Other exponents are not treated."
  },
  {
   "property": "C120",
   "status": "partial",
   "theorems": [
    "C120_multi_partial",
    "C120_multi_exact",
    "C120_equal",
    "C120_unit",
    "C120_temperature",
    "C120_reversed_refuted",
    "C120_zero_refuted"
   ],
   "note": "Proved for MultiUnits with positive exponents only (C120_multi_partial), for tabulated Units and for temperatures. Refuted otherwise: degrees with negative exponents reverse the order (5 A*K^-1 becomes -5 A/K) and the exponent zero makes every value zero (5 m*K^0 becomes 0 m). C120_multi_exact says what happens in every conversion."
  },
  {
   "property": "C121",
   "status": "partial",
   "theorems": [
    "C121_multi",
    "C121_empty",
    "C121_float",
    "C121_nan_refuted",
    "C121_multi_exact",
    "C121_unit",
    "C121_power",
    "C121_watts_refuted",
    "C121_litre_refuted"
   ],
   "note": "What comes out is always what went in (C121_multi, any tables; C121_float, in binary64 bit by bit, or nan where the factor overflows). That something comes out is refuted: W*W, K^0, L and acre cannot be converted to themselves, nor anything to the empty text; C121_multi_exact and C121_unit say exactly which can."
  },
  {
   "property": "C122",
   "status": "partial",
   "theorems": [
    "C122_multi",
    "C122_unit_partial",
    "C122_unit_close_partial",
    "C122_degrees_refuted"
   ],
   "note": "Proved for MultiUnits with any tables and for Units that convert there and back exactly; for the other tabulated units but the mile up to 1e-5 of the second summand. Refuted for temperatures: 20 C and 300 K."
  },
  {
   "property": "C123",
   "status": "partial",
   "theorems": [
    "C123_multi_exact",
    "C123_multi_order_partial",
    "C123_three_refuted",
    "C123_unit_exact",
    "C123_unit_order",
    "C123_unit_order_refuted",
    "C123_builtin_numbers",
    "C123_builtin_fails",
    "C123_builtin_refuted"
   ],
   "note": "C123_multi_exact and C123_unit_exact say exactly which lists add up and to what. The order does not matter for plain MultiUnits and for Units of one class. Refuted: three objects of a MultiUnit subclass (a + b is a plain MultiUnit), a Unit and a Length in m taken in the other order, and built-in sum() of any list that is not all numbers, since there is no __radd__."
  }
 ]
}