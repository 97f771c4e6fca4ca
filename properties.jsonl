{"id": "C01", "title": "Unit strings mean what they spell", "statement": "Building a MultiUnit from a string a1^e1*a2^e2*.../b1^f1*b2^f2*... yields exactly the units a1,a2,... over b1,b2,... in that order with exactly the exponents written (1 where none is written), whatever the unit names and whatever numeric texts are used.", "quantifier": "every non-empty list of top units, every list of bottom units, every unit name free of the separators / * ^ and of blanks, every exponent text that denotes a finite number", "why_tests_cant": "the set of unit strings is infinite; tests only try a handful of strings", "anchors": ["cheme_calculations/units/units.py:MultiUnit.parse_units", "cheme_calculations/units/units.py:MultiUnit.__init__"]}
{"id": "C02", "title": "Malformed unit strings are rejected", "statement": "A unit string that is not of the documented form (more than one /, more than one ^ in a factor, a non-numeric exponent) raises an error instead of silently producing some other unit.", "quantifier": "every string", "why_tests_cant": "a parser accepts or rejects infinitely many strings; a test shows single rejections only", "anchors": ["cheme_calculations/units/units.py:MultiUnit.parse_units"]}
{"id": "C03", "title": "Combining like units preserves the unit", "statement": "combine_units applied to any list of units returns a list denoting the same unit product, in which every name carries a nonzero exponent at most once, and introduces no new names.", "quantifier": "every list of units with arbitrary names and arbitrary rational exponents", "why_tests_cant": "lists have unbounded length and repeated names in every order", "anchors": ["cheme_calculations/units/units.py:MultiUnit.combine_units"]}
{"id": "C04", "title": "Cancelling units preserves the unit and normalises it", "statement": "cancel_units applied to any two halves returns halves denoting the same unit, containing no zero exponent and no negative exponent in the top half; if no name is repeated within a half, no name is left on both sides.", "quantifier": "every pair of unit lists with arbitrary names and rational exponents", "why_tests_cant": "unbounded lists and exponents; interaction of repeated names", "anchors": ["cheme_calculations/units/units.py:MultiUnit.cancel_units"]}
{"id": "C05", "title": "Prefix removal is exact", "statement": "Removing prefixes from a unit returns halves without prefixes and a factor such that factor times the stripped unit denotes the original unit, for every name the library registers and every SI-prefixed symbol.", "quantifier": "every pair of halves with arbitrary exponents over registered or SI-prefixed names", "why_tests_cant": "products over unbounded lists with arbitrary exponents", "anchors": ["cheme_calculations/units/units.py:MultiUnit.deconstruct_unit_prefixes", "cheme_calculations/units/_utility.py:get_prefix"]}
{"id": "C06", "title": "Expansion of derived units terminates, is exact and complete", "statement": "deconstruct_units always returns, the result denotes the same unit, and no derived unit (Pa, J, W, psi, cP, C, V) is left in it.", "quantifier": "every pair of halves: any names, any exponents, any number of derived units in any order on either side", "why_tests_cant": "a loop that edits the lists it iterates over; termination and completeness concern all inputs", "anchors": ["cheme_calculations/units/units.py:MultiUnit.deconstruct_units"]}
{"id": "C07", "title": "Single-pass expansion", "statement": "deconstruct_units(one_pass=True) always returns, denotes the same unit, and expands every derived unit that was given to it once.", "quantifier": "every pair of halves", "why_tests_cant": "the skipped-element behaviour depends on adjacency patterns in unbounded lists", "anchors": ["cheme_calculations/units/units.py:MultiUnit.deconstruct_units"]}
{"id": "C08", "title": "Simplification terminates and is exact", "statement": "simplify_units always returns and the result denotes the same unit as its input.", "quantifier": "every pair of halves with arbitrary names and rational exponents", "why_tests_cant": "a while loop with no evident bound; a test cannot show termination for all inputs", "anchors": ["cheme_calculations/units/units.py:MultiUnit.simplify_units", "cheme_calculations/units/units.py:do_common_simplifications"]}
{"id": "C09", "title": "MultiUnit * MultiUnit denotes the product", "statement": "The product of two MultiUnits is defined and denotes the product of the two quantities, in every coherent system of units.", "quantifier": "all values, all unit halves over admissible names and rational exponents, all coherent unit systems, every MultiUnit subclass", "why_tests_cant": "the quantity law ranges over all values, units and unit systems", "anchors": ["cheme_calculations/units/units.py:MultiUnit.__mul__"]}
{"id": "C10", "title": "MultiUnit / MultiUnit denotes the quotient", "statement": "Dividing a MultiUnit by a MultiUnit of nonzero value is defined and denotes the quotient of the two quantities, whether the result is a number, a Unit or a MultiUnit; dividing by a zero value raises ZeroDivisionError.", "quantifier": "all values, unit halves over admissible names and rational exponents, coherent unit systems, subclasses", "why_tests_cant": "ranges over all values, units and unit systems, and three result shapes", "anchors": ["cheme_calculations/units/units.py:MultiUnit.__truediv__"]}
{"id": "C11", "title": "MultiUnit / Unit denotes the quotient", "statement": "Dividing a MultiUnit by a Unit of nonzero value is defined and denotes the quotient of the two quantities.", "quantifier": "all values, unit halves and units over admissible names and rational exponents, all Unit subclasses, coherent unit systems", "why_tests_cant": "ranges over all values, units and unit systems", "anchors": ["cheme_calculations/units/units.py:MultiUnit.__truediv__"]}
{"id": "C12", "title": "MultiUnit * Unit and Unit * MultiUnit denote the product", "statement": "The product of a MultiUnit and a Unit, in either order, denotes the product of the two quantities.", "quantifier": "all values, admissible names (with and without SI prefix), rational exponents, coherent unit systems", "why_tests_cant": "a test with prefix-free units passes although prefixed units give wrong values", "anchors": ["cheme_calculations/units/units.py:MultiUnit.__mul__", "cheme_calculations/units/units.py:Unit.__mul__"]}
{"id": "C13", "title": "Unit / MultiUnit denotes the quotient", "statement": "Dividing a Unit by a MultiUnit denotes the quotient of the two quantities.", "quantifier": "all values, admissible names (with and without SI prefix), rational exponents, coherent unit systems", "why_tests_cant": "a test with prefix-free units passes although prefixed units give wrong values", "anchors": ["cheme_calculations/units/units.py:Unit.__truediv__", "cheme_calculations/units/units.py:MultiUnit.__rtruediv__"]}
{"id": "C14", "title": "Unit * Unit denotes the product", "statement": "The product of two Units denotes the product of the two quantities.", "quantifier": "all values, names, exponents and Unit subclasses", "why_tests_cant": "depends on the combination of classes, names and exponents", "anchors": ["cheme_calculations/units/units.py:Unit.__mul__"]}
{"id": "C15", "title": "Unit / Unit denotes the quotient", "statement": "Dividing a Unit by a Unit of nonzero value denotes the quotient of the two quantities, for all names, exponents and Unit subclasses; dividing by a zero value raises ZeroDivisionError.", "quantifier": "all values, names, rational exponents, Unit subclasses, unit systems", "why_tests_cant": "ranges over all values, names and exponents", "anchors": ["cheme_calculations/units/units.py:Unit.__truediv__"]}
{"id": "C16", "title": "Scaling by a plain number keeps the unit", "statement": "Multiplying a Unit or MultiUnit by a number (either side) or dividing it by a nonzero number scales the value and leaves the unit unchanged, exponent included.", "quantifier": "all values, numbers, names, exponents, classes", "why_tests_cant": "depends on the exponent of the operand", "anchors": ["cheme_calculations/units/units.py:Unit.__mul__", "cheme_calculations/units/units.py:Unit.__rmul__", "cheme_calculations/units/units.py:MultiUnit.__mul__", "cheme_calculations/units/units.py:MultiUnit.__rmul__", "cheme_calculations/units/units.py:MultiUnit.__truediv__"]}
{"id": "C17", "title": "Powers denote powers", "statement": "Raising a Unit or MultiUnit of positive value to a rational power denotes that power of the quantity.", "quantifier": "all positive values, rational powers, names, exponents, classes, coherent unit systems", "why_tests_cant": "ranges over all exponents and unit lists", "anchors": ["cheme_calculations/units/units.py:Unit.__pow__", "cheme_calculations/units/units.py:MultiUnit.__pow__"]}
{"id": "C18", "title": "Number / MultiUnit and negation", "statement": "Dividing a number by a MultiUnit of nonzero value denotes the quotient; negation negates the quantity and keeps class and unit.", "quantifier": "all numbers, values, halves, classes, unit systems", "why_tests_cant": "ranges over all values and units", "anchors": ["cheme_calculations/units/units.py:MultiUnit.__rtruediv__", "cheme_calculations/units/units.py:MultiUnit.__neg__", "cheme_calculations/units/units.py:Unit.__neg__"]}
{"id": "C19", "title": "Addition and subtraction only combine identical units", "statement": "a+b and a-b on two unit-carrying operands either raise TypeError or return the sum/difference of the values in the very unit both operands carry; no sum of unlike units is ever returned.", "quantifier": "all pairs of Units and MultiUnits, all values, names, exponents, classes", "why_tests_cant": "a test shows single rejections; the claim is the absence of any wrong sum", "anchors": ["cheme_calculations/units/units.py:Unit.__add__", "cheme_calculations/units/units.py:Unit.__sub__", "cheme_calculations/units/units.py:MultiUnit.__add__", "cheme_calculations/units/units.py:MultiUnit.__sub__"]}
{"id": "C20", "title": "Multiplication is commutative and associative as quantities", "statement": "a*b and b*a, and (a*b)*c and a*(b*c), are defined and denote the same quantity.", "quantifier": "all triples of MultiUnits over admissible names", "why_tests_cant": "algebraic laws range over all operands; the intermediate simplifications differ by order", "anchors": ["cheme_calculations/units/units.py:MultiUnit.__mul__"]}
{"id": "C21", "title": "Division undoes multiplication", "statement": "(a*b)/b denotes the same quantity as a, and a/a is the plain number 1, for operands of nonzero value.", "quantifier": "all MultiUnits over admissible names", "why_tests_cant": "algebraic law over all operands and all simplification paths", "anchors": ["cheme_calculations/units/units.py:MultiUnit.__mul__", "cheme_calculations/units/units.py:MultiUnit.__truediv__"]}
{"id": "C22", "title": "Equality is sound", "statement": "== is reflexive and symmetric, and two objects that compare equal denote the same quantity; == is transitive.", "quantifier": "all pairs and triples of Units and MultiUnits", "why_tests_cant": "soundness of equality concerns all pairs; counterexamples need particular shapes", "anchors": ["cheme_calculations/units/units.py:Unit.__eq__", "cheme_calculations/units/units.py:MultiUnit.__eq__", "cheme_calculations/units/units.py:BaseUnit.__hash__"]}
{"id": "C23", "title": "Unsupported operands raise TypeError", "statement": "Arithmetic between a unit-carrying object and an object that is neither a number nor unit-carrying raises TypeError.", "quantifier": "all units, all operators, all foreign objects", "why_tests_cant": "covers every operator and operand order", "anchors": ["cheme_calculations/units/units.py:Unit", "cheme_calculations/units/units.py:MultiUnit.__mul__", "cheme_calculations/units/units.py:MultiUnit.__truediv__"]}
{"id": "C24", "title": "Temperature conversion is a consistent change of scale", "statement": "Converting a temperature between any two of K, C, F, R follows the physical scale definitions; converting there and back returns the original value, and going through a third scale gives the same result as converting directly.", "quantifier": "all temperature values, all pairs and triples of scales", "why_tests_cant": "ranges over all real values", "anchors": ["cheme_calculations/units/units.py:Temperature", "cheme_calculations/units/units.py:Unit.convert_to"]}
{"id": "C25", "title": "Unit conversion round trip", "statement": "Converting a Unit to another unit of its class and back returns the original value.", "quantifier": "all classes, all pairs of unit names in the conversion tables, all values", "why_tests_cant": "ranges over all values and all pairs; constants may be off by parts per million", "anchors": ["cheme_calculations/units/units.py:Unit.convert_to", "cheme_calculations/units/units.py:Length", "cheme_calculations/units/units.py:Mass", "cheme_calculations/units/units.py:Pressure", "cheme_calculations/units/units.py:Energy", "cheme_calculations/units/units.py:Force", "cheme_calculations/units/units.py:Time"]}
{"id": "C26", "title": "Unit conversion agrees with the SI definition of the units", "statement": "Converting a Unit of exponent 1 multiplies its value by the ratio of the SI sizes of the two units.", "quantifier": "all classes, unit names, values", "why_tests_cant": "each table entry must agree with an independent definition for all values", "anchors": ["cheme_calculations/units/units.py:Unit.convert_to"]}
{"id": "C27", "title": "Unit conversion of powers", "statement": "Converting a Unit with exponent n to u^n multiplies the value by the n-th power of the ratio of the unit sizes.", "quantifier": "all classes, names, exponents, values", "why_tests_cant": "the error is invisible for value 1 and exponent 1", "anchors": ["cheme_calculations/units/units.py:Unit.convert_to"]}
{"id": "C28", "title": "MultiUnit conversion preserves the quantity", "statement": "If converting a MultiUnit to a unit string succeeds, the result carries exactly the requested unit and denotes the same quantity.", "quantifier": "all values, all unit halves, all target strings, all coherent unit systems", "why_tests_cant": "ranges over all compositions of registered units and exponents", "anchors": ["cheme_calculations/units/units.py:MultiUnit.convert_to"]}
{"id": "C29", "title": "MultiUnit conversion round trip", "statement": "Converting a MultiUnit to another unit and back to the original unit string returns the original value.", "quantifier": "all values, all pairs of unit strings for which the conversions succeed", "why_tests_cant": "ranges over all values and unit pairs", "anchors": ["cheme_calculations/units/units.py:MultiUnit.convert_to"]}
{"id": "C30", "title": "MultiUnit conversion is path independent", "statement": "Converting a MultiUnit from u to v directly or through w gives the same value.", "quantifier": "all values, all triples of unit strings for which the conversions succeed", "why_tests_cant": "ranges over all values and triples", "anchors": ["cheme_calculations/units/units.py:MultiUnit.convert_to"]}
{"id": "C31", "title": "Conversion between different dimensions is refused", "statement": "Converting a MultiUnit to a unit of different physical dimension raises an error and never returns a value.", "quantifier": "all halves, all target strings over registered units", "why_tests_cant": "absence of any wrong success over infinitely many unit pairs", "anchors": ["cheme_calculations/units/units.py:MultiUnit.convert_to"]}
{"id": "C32", "title": "Dimensionally equal units are convertible", "statement": "Converting a MultiUnit to a unit string of the same physical dimension over registered units succeeds.", "quantifier": "all halves and target strings over registered names", "why_tests_cant": "completeness over infinitely many unit pairs", "anchors": ["cheme_calculations/units/units.py:MultiUnit.convert_to"]}
{"id": "C33", "title": "Unit checks accept exactly the required unit", "statement": "check_units passes for plain numbers and for objects carrying the required unit (exponent included) and raises IncorrectUnits for every other unit-carrying object.", "quantifier": "all objects, all required unit strings", "why_tests_cant": "ranges over all objects and required units", "anchors": ["cheme_calculations/units/units.py:check_units"]}
{"id": "C34", "title": "Registering a unit makes it convertible consistently", "statement": "After register_unit_from_existing(new, existing, to, from) with to/from mutually inverse, converting a value of the new unit to the standard unit and back is the identity, converting to the existing unit applies to, and conversions not involving the new unit are unchanged, after any sequence of registrations.", "quantifier": "all sequences of registrations, all function pairs, all values", "why_tests_cant": "histories of registrations are unbounded; order of composition matters", "anchors": ["cheme_calculations/units/units.py:register_unit_from_existing"]}
{"id": "C35", "title": "Arithmetic does not modify its operands", "statement": "Evaluating any arithmetic operation on unit-carrying objects leaves all previously existing objects unchanged.", "quantifier": "all heaps, operands and operators", "why_tests_cant": "aliasing concerns every reachable object; a test inspects a few", "anchors": ["cheme_calculations/units/units.py:MultiUnit.__mul__", "cheme_calculations/units/units.py:MultiUnit.__truediv__", "cheme_calculations/units/units.py:MultiUnit.cancel_units", "cheme_calculations/units/units.py:MultiUnit.combine_units"]}
{"id": "C36", "title": "Objects built without explicit halves are independent", "statement": "Changing the unit lists of one MultiUnit never changes another MultiUnit built separately.", "quantifier": "all construction histories", "why_tests_cant": "sharing through default arguments shows only after particular histories", "anchors": ["cheme_calculations/units/units.py:MultiUnit.__init__"]}
{"id": "C37", "title": "Display keeps the exponent", "statement": "The displayed form of a unit shows every exponent different from 1 exactly.", "quantifier": "all units and exponents", "why_tests_cant": "ranges over all exponents", "anchors": ["cheme_calculations/units/units.py:MultiUnit.get_unit_string", "cheme_calculations/units/_utility.py:remove_zero", "cheme_calculations/units/_utility.py:to_sup"]}
{"id": "C38", "title": "Solver dispatch", "statement": "A function decorated with solvable_for runs only when exactly one argument is missing and that argument is one it can solve for; otherwise it raises the documented error (UnsolvableEquation, OverSpecifiedProblem, SolutionNotSupported).", "quantifier": "all functions, all argument lists, positional or keyword", "why_tests_cant": "ranges over all call shapes", "anchors": ["cheme_calculations/utility/equation_solving.py:solvable_for"]}
{"id": "C39", "title": "planar_heat solutions are mutually consistent", "statement": "Solving planar_heat for q and feeding q back to solve for T1 or T2 returns the temperature started from; likewise planar_flux.", "quantifier": "all conductivities, temperatures, areas, thicknesses (nonzero where divided by)", "why_tests_cant": "algebraic inverse over all reals", "anchors": ["cheme_calculations/heat_transfer/steady_state_conduction.py:planar_heat", "cheme_calculations/heat_transfer/steady_state_conduction.py:planar_flux"]}
{"id": "C40", "title": "Pipe and sphere conduction", "statement": "The heat flow through a pipe or a sphere wall is zero iff the temperatures are equal, changes sign when the temperatures are swapped, and is proportional to the conductivity.", "quantifier": "all positive conductivities and radii, all temperatures", "why_tests_cant": "ranges over all reals", "anchors": ["cheme_calculations/heat_transfer/steady_state_conduction.py:pipe_heat", "cheme_calculations/heat_transfer/steady_state_conduction.py:sphere_heat"]}
{"id": "C41", "title": "Water properties interpolate the table", "statement": "get_water_properties answers for every temperature in the tabulated range, returns the table row at tabulated temperatures, values between the two neighbouring rows otherwise, is continuous in temperature, and raises OutOfRangeProperty outside the range.", "quantifier": "all real temperatures", "why_tests_cant": "the temperature is a continuum; only grid points can be tested", "anchors": ["cheme_calculations/utility/get_chemical_properties.py:get_water_properties", "cheme_calculations/utility/water_data.py:WATER_PROPERTIES"]}
{"id": "C42", "title": "Water phase", "statement": "The reported phase of water at atmospheric pressure is liquid below the boiling row of the table (373.12 K) and vapor above it.", "quantifier": "all temperatures in range", "why_tests_cant": "the temperature is a continuum", "anchors": ["cheme_calculations/utility/get_chemical_properties.py:get_water_properties"]}
{"id": "C43", "title": "Formula atom counts", "statement": "The atom counts used for balancing an equation are those of the formula written.", "quantifier": "all formulas built from element symbols with numeric subscripts", "why_tests_cant": "formulas are unbounded strings", "anchors": ["cheme_calculations/reactions/balance.py"]}
{"id": "C44", "title": "A balanced equation conserves atoms", "statement": "Whatever coefficients balance_equation prints, they are positive whole numbers and the atoms of every element agree on both sides, given an exact solution of the linear system.", "quantifier": "all reactions whose linear system is solved exactly", "why_tests_cant": "ranges over all rational solution vectors", "anchors": ["cheme_calculations/reactions/balance.py:balance_equation"]}
{"id": "C45", "title": "Equation-of-state iterations converge only to roots", "statement": "Any fixed point of the vapor or liquid iteration of each cubic equation of state is a root of that equation of state at the given temperature and pressure.", "quantifier": "all temperatures, pressures, critical constants, all fixed points", "why_tests_cant": "ranges over all reals and all fixed points", "anchors": ["cheme_calculations/thermodynamics/cubic_equations.py"]}
{"id": "C46", "title": "Dimensionless groups are dimensionless and unit independent", "statement": "Reynolds, Prandtl, Schmidt, Biot numbers computed from consistent inputs are plain numbers whose value does not depend on the units the inputs are expressed in.", "quantifier": "all values, all choices of length/mass/time units for each argument", "why_tests_cant": "ranges over all values and all unit choices", "anchors": ["cheme_calculations/utility/dimensionless.py"]}
{"id": "C47", "title": "Process-safety formulas agree with their documentation", "statement": "vessel failure pressure, fatal accident rate, OSHA incidence rate and ventilation concentrations compute the documented formula; the two concentration functions are mutually consistent.", "quantifier": "all positive inputs", "why_tests_cant": "ranges over all reals and both branches of piecewise definitions", "anchors": ["cheme_calculations/process_safety/explosions.py", "cheme_calculations/process_safety/incident_evaluation.py", "cheme_calculations/process_safety/ventilation.py"]}
{"id": "C48", "title": "Arrhenius relation solved for different unknowns is consistent", "statement": "Solving the Arrhenius relation for k, A, Ea or T gives values that satisfy the relation with each other.", "quantifier": "all positive inputs", "why_tests_cant": "algebraic inverse over all reals", "anchors": ["cheme_calculations/reactions/reaction_parameters.py:arrhenius"]}
{"id": "C49", "title": "Log-mean temperature difference", "statement": "The log-mean temperature difference lies between the two end differences and is symmetric in them; it is defined for every pair of positive end differences.", "quantifier": "all positive end differences", "why_tests_cant": "an inequality over all positive reals", "anchors": ["cheme_calculations/heat_transfer/heat_exchangers.py:deltat_logmean"]}
{"id": "C50", "title": "Transient models stay within physical bounds", "statement": "The lumped-parameter temperature lies between the initial and the surrounding temperature and approaches the surrounding one monotonically.", "quantifier": "all times, all positive parameters, all temperatures", "why_tests_cant": "an inequality over all reals", "anchors": ["cheme_calculations/heat_transfer/non_steady_state_conduction.py:lumped_parameter"]}
{"id": "C51", "title": "Steady diffusion fluxes", "statement": "Fluxes vanish exactly at equal driving concentrations and change sign when the boundary concentrations are swapped.", "quantifier": "all positive parameters and concentrations", "why_tests_cant": "ranges over all reals", "anchors": ["cheme_calculations/mass_transfer/steady_state_diffusion.py"]}
{"id": "C52", "title": "Unit registry and conversion tables agree", "statement": "Every registered unit name has a class and can be converted to the standard unit of that class.", "quantifier": "all registered names and values", "why_tests_cant": "a sweep over the whole registry with arbitrary values", "anchors": ["cheme_calculations/units/units.py:UNIT_REGISTRY", "cheme_calculations/units/units.py:MultiUnit.get_unit_class", "cheme_calculations/units/units.py:Unit.convert_to"]}
{"id": "C53", "title": "Gas constants agree", "statement": "The gas constants offered in different units denote the same physical constant up to their printed precision.", "quantifier": "all pairs of offered gas constants", "why_tests_cant": "agreement is a statement about the conversion of every pair", "anchors": ["cheme_calculations/utility/constants.py"]}
{"id": "C54", "title": "Arithmetic stays within well-formed units", "statement": "Whatever arithmetic expression is evaluated over numbers and objects with well-formed unit names, the result again has well-formed unit names, and the evaluation can only fail with TypeError or ZeroDivisionError (or the complex result of a fractional power of a negative number); products are always defined and quotients fail only on a zero divisor or a number divided by a Unit.", "quantifier": "all expressions built from * / + - ** and negation, of any depth, over all values, names, exponents and classes", "why_tests_cant": "the statement ranges over expressions of unbounded size", "anchors": ["cheme_calculations/units/units.py:Unit", "cheme_calculations/units/units.py:MultiUnit"]}
{"id": "C55", "title": "Adding a plain number keeps the unit", "statement": "Adding a number to a Unit, or subtracting it, changes the value by that number and leaves unit, exponent and class unchanged.", "quantifier": "all values, numbers, names, exponents and classes", "why_tests_cant": "ranges over all exponents", "anchors": ["cheme_calculations/units/units.py:Unit.__add__", "cheme_calculations/units/units.py:Unit.__sub__"]}
{"id": "C56", "title": "Whole expressions denote the right quantity", "statement": "If an arithmetic expression over numbers and unit-carrying objects evaluates, its result denotes the physical quantity the expression stands for.", "quantifier": "all expressions of any depth, all coherent unit systems", "why_tests_cant": "the statement ranges over expressions of unbounded size and all unit systems", "anchors": ["cheme_calculations/units/units.py:Unit", "cheme_calculations/units/units.py:MultiUnit"]}
{"id": "C57", "title": "Exponent texts are exact", "statement": "The text an exponent is written as reads back, through float(), as the same exponent; float() of any decimal numeral is its value and nothing but numerals is accepted.", "quantifier": "all int exponents, all float exponents with at most 12 decimals and magnitude 0 or from 0.0001 to 1e15; all numerals; all strings", "why_tests_cant": "ranges over infinitely many texts and exponents", "anchors": ["cheme_calculations/units/units.py:MultiUnit.parse_units", "cheme_calculations/units/units.py:MultiUnit.convert_and_get_factor", "cheme_calculations/units/units.py:BaseUnit.__hash__"]}
{"id": "C58", "title": "A displayed unit can be read back", "statement": "Building a MultiUnit from the displayed form of a unit gives that unit again.", "quantifier": "all units", "why_tests_cant": "ranges over all units", "anchors": ["cheme_calculations/units/units.py:MultiUnit.get_unit_string", "cheme_calculations/units/units.py:MultiUnit.parse_units", "cheme_calculations/reactions/reaction_parameters.py"]}
{"id": "C59", "title": "A Water object carries the state asked for", "statement": "The Water object built for a temperature carries that temperature, the table's pressure and, for every other property, the tabulated value in the tabulated unit.", "quantifier": "all temperatures in the range of the table", "why_tests_cant": "the temperature is a real number; tests only look at a few values", "anchors": ["cheme_calculations/utility/get_chemical_properties.py:get_water_properties", "cheme_calculations/utility/get_chemical_properties.py:Water"]}
{"id": "C60", "title": "Gas-phase iterations converge", "statement": "At low reduced pressure the vapor iterations of the Redlich-Kwong and Soave functions converge to the largest root of the equation of state, with a geometric error bound in the number of iterations.", "quantifier": "all temperatures, pressures and critical constants with 0.08664 Pr <= Tr/2 and attraction term at most 1/5; all iteration counts", "why_tests_cant": "convergence is a statement about unboundedly many iterations over the reals", "anchors": ["cheme_calculations/thermodynamics/cubic_equations.py:rendlich_kwong", "cheme_calculations/thermodynamics/cubic_equations.py:soave_rendlich_kwong"]}
{"id": "C61", "title": "Equations of state refuse mixed units", "statement": "A call in which the temperature and its critical value are in different units while the pressures agree, or the other way, raises instead of answering.", "quantifier": "all unit names, values, states and iteration counts; all four functions", "why_tests_cant": "ranges over all unit names and values", "anchors": ["cheme_calculations/thermodynamics/cubic_equations.py"]}
{"id": "C62", "title": "Impossible equations are refused", "statement": "An equation whose parentheses do not match raises InvalidParentheses, and one whose sides do not have the same elements raises ImproperChemicalEquation; text without an arrow is refused.", "quantifier": "all equations", "why_tests_cant": "equations are unbounded strings", "anchors": ["cheme_calculations/reactions/balance.py:balance_equation", "cheme_calculations/reactions/balance.py:_check_valid_parenthese"]}
{"id": "C63", "title": "Fractions are recovered from floating-point solutions", "statement": "The fraction made from a component of the numerical solution is the closest one with a denominator of at most a million; a fraction with a denominator of at most 1000 is recovered from any number within 5e-10 of it.", "quantifier": "all rational numbers", "why_tests_cant": "ranges over all numbers and all competing fractions", "anchors": ["cheme_calculations/reactions/balance.py:balance_equation"]}
{"id": "C64", "title": "In-place conversion changes one object", "statement": "convert_to with inplace=True gives the object converted the value and units of the converted object, returns None, and leaves every other object as it was, also those that shared their unit lists with it; if it raises nothing changes.", "quantifier": "all heaps, objects, target units and conversion tables", "why_tests_cant": "sharing between objects depends on the whole history of a program", "anchors": ["cheme_calculations/units/units.py:MultiUnit.convert_to", "cheme_calculations/units/units.py:Unit.convert_to"]}
{"id": "C65", "title": "Conversion creates a new object", "statement": "convert_to without inplace returns a new object that shares nothing with existing ones, and leaves those unchanged.", "quantifier": "all heaps, objects, target units and conversion tables", "why_tests_cant": "returning the object itself is seen only when one of the two is changed later", "anchors": ["cheme_calculations/units/units.py:MultiUnit.convert_to", "cheme_calculations/units/units.py:Unit.convert_to"]}
{"id": "C66", "title": "Heat transfer coefficients", "statement": "The heat transfer correlations return the documented Nusselt number times k / L as a quantity per area and degree, increase with the Reynolds number, and the laminar ones convert that quantity to W/m^2*K or BTU/hr*ft^2*F; the averaged turbulent one can be negative, and the laminar ones refuse conductivities per degree C.", "quantifier": "all Reynolds and Prandtl numbers, lengths and conductivities; listed unit texts, and for the quantity all admissible units", "why_tests_cant": "non-integer powers of all real numbers; negative coefficients appear only below a certain Reynolds number", "anchors": ["cheme_calculations/heat_transfer/heat_transfer_coefficients.py"]}
{"id": "C67", "title": "Graetz and Grashof numbers", "statement": "gretz and grashof return plain numbers in consistent units, grashof takes what beta returns, and an expansion coefficient written 1/K does not give a number.", "quantifier": "all values; all combinations of the listed mass, length, time, energy and temperature units", "why_tests_cant": "the number of unit combinations and all values", "anchors": ["cheme_calculations/utility/dimensionless.py:gretz", "cheme_calculations/utility/dimensionless.py:grashof", "cheme_calculations/utility/dimensionless.py:beta"]}
{"id": "C68", "title": "Transient slabs", "statement": "The semi-infinite and finite slab functions for conduction and diffusion return the documented closed form or partial sum in the unit of the surface value; the sums vanish at the surface, are symmetric about the middle, and the total heat grows with time and with the number of terms; the melting time is a time.", "quantifier": "all values, all functions in place of erf, all numbers of terms, listed unit texts", "why_tests_cant": "partial sums of every length", "anchors": ["cheme_calculations/heat_transfer/non_steady_state_conduction.py", "cheme_calculations/mass_transfer/non_steady_state_diffusion.py"]}
{"id": "C69", "title": "Decay of a pulse", "statement": "The one, two and three dimensional pulse functions return the Gaussian concentration in mass per volume, with two- and eightfold values for hemisphere and cube; with a diffusion coefficient in cm^2/s among SI quantities the number is wrong.", "quantifier": "all values; all combinations of the listed mass, length and time units", "why_tests_cant": "ranges over all real values; the wrong number has the right unit", "anchors": ["cheme_calculations/mass_transfer/diffusion_scenarios.py"]}
{"id": "C70", "title": "Radiation", "statement": "radiative_heat_flow is the Stefan-Boltzmann law in W for areas in m^2 and temperatures in K, changes sign when the temperatures are exchanged and is positive exactly from hot to cold; the units of area and temperature are otherwise ignored.", "quantifier": "all areas, view factors and temperatures in the listed units", "why_tests_cant": "ranges over all real values; the result is labelled W whatever the arguments", "anchors": ["cheme_calculations/heat_transfer/radiation.py"]}
{"id": "C71", "title": "Diffusion coefficients", "statement": "Stokes-Einstein, Nernst, Fuller and Wilke-Chang return the documented value in m^2/s or cm^2/s for the documented units or plain numbers; mixing numbers and objects changes Fuller's and Wilke-Chang's number or raises, and the unit documented for ionic conductivities gives no diffusion coefficient.", "quantifier": "all values; every choice of objects or numbers for Fuller's arguments", "why_tests_cant": "ranges over all real values and all mixtures of objects and numbers; the wrong numbers carry the right unit", "anchors": ["cheme_calculations/mass_transfer/diffusion_coefficients.py"]}
{"id": "C72", "title": "Condensation and boiling", "statement": "condensation_transfer_coefficient and flux_max_boiling return the documented value in energy per time, area (and degree); the boiling flux is not converted to W/m^2, and a surface tension in N/m raises.", "quantifier": "all positive values; all combinations of the listed units", "why_tests_cant": "ranges over all real values and thousands of unit combinations", "anchors": ["cheme_calculations/heat_transfer/phase_changes.py"]}
{"id": "C73", "title": "The shell side of an exchanger", "statement": "Ge_calc, htc_shell, z_factor, nh_factor and equivalent_diameter return the documented quantity; Sb_calc and Sc_calc return lengths instead of areas, so that shell_htc_full returns the right number in the unit of a conductivity.", "quantifier": "all values; all combinations of the listed mass, length, time, energy and temperature units", "why_tests_cant": "ranges over all real values and thousands of unit combinations", "anchors": ["cheme_calculations/heat_transfer/heat_exchangers.py"]}
{"id": "C74", "title": "The integral method", "statement": "The r squared reported is the largest coefficient of determination of a least-squares line among the rounds, lies in [0, 1], and belongs to the order reported, the first that attains it. Data following a rate law exactly are recognised when the order is tried alone, after orders up to 0, or is 1; other orders are missed because each round transforms the data of the round before, and negative orders are never recognised. Positive data are always answered; exactly which others are refused is known.", "quantifier": "all data, all ranges of orders", "why_tests_cant": "quantifies over all data sets and order ranges; compares with every line", "anchors": ["cheme_calculations/reactions/reaction_parameters.py:integral_method"]}
{"id": "C75", "title": "Stirred tanks and evaporation", "statement": "cstr_volume returns (Fa0 - Fa)/(-ra) in the volume unit of the rate; K_from_standard and Qm_evaporation return the documented mass transfer coefficient and evaporation rate in g/s with the conversion from cm to m.", "quantifier": "all values; listed substance, time and volume units", "why_tests_cant": "ranges over all real values", "anchors": ["cheme_calculations/reactions/reactor_design.py", "cheme_calculations/process_safety/ventilation.py"]}
{"id": "C76", "title": "Rounding errors of expressions", "statement": "In any arithmetic whose operations have a relative error of at most u, an expression of unit objects built with *, /, ** and unary minus (or with +, *, /, ** over positive values) raises the same exception or has the same class and units as in exact arithmetic, and its value differs by at most the number of roundings of the run: a factor between (1-u)^n and (1-u)^-n.", "quantifier": "all expressions, all operand values, all arithmetics with bounded relative error", "why_tests_cant": "quantifies over all expressions and over every rounding of every intermediate result", "anchors": ["cheme_calculations/units/units.py:Unit", "cheme_calculations/units/units.py:MultiUnit"]}
{"id": "C77", "title": "Rounding errors of conversions", "statement": "In any arithmetic whose operations have a relative error of at most u, convert_to of a MultiUnit or of a Unit that is no temperature raises the same exception or returns the same units as in exact arithmetic with a value off by a bounded number of roundings; a temperature converted between any two scales is off by at most 12 u (2|v| + 1200).", "quantifier": "all objects, all targets, all arithmetics with bounded relative error", "why_tests_cant": "quantifies over all values, targets and roundings", "anchors": ["cheme_calculations/units/units.py:convert_to"]}
{"id": "C78", "title": "Converting there and back in floats", "statement": "A MultiUnit converted to another unit and back in float arithmetic has the units it started with and a value within the counted roundings; it need not be the same float.", "quantifier": "all MultiUnits, targets and arithmetics; binary64 for the counterexamples", "why_tests_cant": "the bound ranges over all values and roundings; exactness fails only for particular floats", "anchors": ["cheme_calculations/units/units.py:convert_to"]}
{"id": "C79", "title": "The heat exchanger system", "statement": "solve_heat_exchanger_system returns None for every call whose two missing parameters are among the solvable ones and never returns anything else; missing parameters are not solved for, and a stream with neither flow nor heat capacity is not refused.", "quantifier": "all calls", "why_tests_cant": "ranges over all calls and all argument values", "anchors": ["cheme_calculations/heat_transfer/heat_exchangers.py:solve_heat_exchanger_system"]}
{"id": "C80", "title": "Exponents held as floats", "statement": "With exponents rounded to binary64 after every operation, multiplication, division and powers of unit objects give exactly the result of exact exponents, whenever the exponents are multiples of a power of one half that leave room in 53 bits (multiples of 1/256 of ordinary size do); decimal exponents and roots beyond the 48th need not.", "quantifier": "all values, all units, all such exponents; all number types for the values", "why_tests_cant": "quantifies over all units and exponents and over every intermediate exponent of the pipeline", "anchors": ["cheme_calculations/units/units.py:MultiUnit.cancel_units", "cheme_calculations/units/units.py:MultiUnit.combine_units", "cheme_calculations/units/units.py:MultiUnit.simplify_units", "cheme_calculations/units/units.py:MultiUnit.deconstruct_units"]}
{"id": "C81", "title": "The exponent total", "statement": "get_exponent_total is the sum of the exponents of both halves, and the same in floats for the exponents of C80.", "quantifier": "all MultiUnits", "why_tests_cant": "ranges over all units and exponents", "anchors": ["cheme_calculations/units/units.py:MultiUnit.get_exponent_total"]}
{"id": "C82", "title": "Parsing and converting with exponents held as floats", "statement": "Reading a unit from text rounds each exponent to binary64 and changes nothing else; converting a Unit or MultiUnit with rounded exponents gives exactly the result of exact exponents whenever the exponents of both sides are multiples of a power of one half that leave room in 53 bits; with decimal exponents a conversion can be refused or accepted wrongly.", "quantifier": "all texts, all units, all such exponents, all conversion tables; all number types for the values", "why_tests_cant": "quantifies over all units and exponents and over every intermediate exponent and dimension total", "anchors": ["cheme_calculations/units/units.py:MultiUnit.parse_units", "cheme_calculations/units/units.py:MultiUnit.convert_to", "cheme_calculations/units/units.py:Unit.convert_to"]}
{"id": "C83", "title": "Binary64 with its range", "statement": "Run in IEEE binary64, expressions of unit objects and conversions raise the exceptions of the exact run or give its class and units and a finite value within the counted roundings, as long as a bound on the sizes of the numbers, computed from the sizes of the operands, stays within 2^-1000 to 2^1000; temperatures are off by at most 12 roundings of twice their size plus 1200. Operands and results in range are not enough: a product in between can overflow to infinity, or underflow so that a division raises.", "quantifier": "all binary64 operands, all expressions without cancellation, all units and targets, any accurate power function", "why_tests_cant": "ranges over all floats and all expressions, and over every intermediate rounding", "anchors": ["cheme_calculations/units/units.py:convert_to", "cheme_calculations/units/units.py:Unit.__mul__", "cheme_calculations/units/units.py:MultiUnit.__truediv__"]}
{"id": "C84", "title": "Printed quantities", "statement": "The text of a float is a decimal that is read back as exactly that float, no decimal of fewer digits is, and of those of the same length none is nearer (of two equally near ones the even is taken); it is laid out in one way, with an exponent from 10^16 on and below 1/10000. A decimal of at most 15 digits of normal size is printed as written; one of 16 digits and subnormal ones need not be. The text of a Unit or MultiUnit determines its value exactly (an int from a float too), the units on each side of the slash and their exponents; so objects that print alike are the same quantity in every unit system. The text of a BaseUnit is read back as it. Whether BTU occurs in a text depends on the units only. The class is not printed, and an exponent whose first decimal is 0 loses its decimals.", "quantifier": "all finite floats and ints, all unit names of letters, digits and carets, all exponents without a 0 as first decimal", "why_tests_cant": "ranges over all floats and over all pairs of objects", "anchors": ["cheme_calculations/units/units.py:Unit.__repr__", "cheme_calculations/units/units.py:MultiUnit.__repr__", "cheme_calculations/units/units.py:BaseUnit.__repr__", "cheme_calculations/units/units.py:MultiUnit.get_unit_string"]}
{"id": "C85", "title": "Equality and hashes of BaseUnits", "statement": "Two BaseUnits are the same element of a set exactly if they compare equal and have the same text; BaseUnits that compare equal can have different hashes (m^2 and m^2.0), which is what makes MultiUnits with equal units compare unequal.", "quantifier": "all BaseUnits whose exponent has a modelled text", "why_tests_cant": "ranges over all pairs of names and exponents", "anchors": ["cheme_calculations/units/units.py:BaseUnit.__hash__", "cheme_calculations/units/units.py:BaseUnit.__eq__", "cheme_calculations/units/units.py:BaseUnit.__repr__"]}
{"id": "C86", "title": "Helpers nothing calls", "statement": "powerset lists every non-empty subsequence once, 2^n - 1 of them, by length and then by position. The check of parentheses always ends and accepts exactly the well-nested texts that contain nothing but parentheses, so it would refuse every chemical equation.", "quantifier": "all lists, all texts", "why_tests_cant": "ranges over all lists and all texts; termination", "anchors": ["cheme_calculations/units/_utility.py:powerset", "cheme_calculations/reactions/balance.py:_check_valid_parenthese"]}
{"id": "C87", "title": "What the operators return, defects included", "statement": "MultiUnit*Unit, Unit/MultiUnit, Unit*Unit, Unit*number and Unit+number succeed and return the right quantity divided by a known factor: the sizes of the prefixes, or the powers of the units, that are dropped. They are right exactly when that factor is 1 (for Unit*Unit, in every unit system: same class and name, or exponents 1, or same name and exponents adding up to 2) or the quantity is 0. Every expression evaluates to its quantity with the factors lost at each operator; an expression without sums is right exactly when the factors multiply to 1 or it is 0.", "quantifier": "all operands with admissible names, all expressions over them, all coherent unit systems", "why_tests_cant": "ranges over all operand pairs, expressions and unit systems; an equivalence cannot be sampled", "anchors": ["cheme_calculations/units/units.py:MultiUnit.__mul__", "cheme_calculations/units/units.py:Unit.__mul__", "cheme_calculations/units/units.py:Unit.__truediv__", "cheme_calculations/units/units.py:Unit.__add__"]}
{"id": "C88", "title": "Prefix removal for every name", "statement": "Whatever the names, prefix removal returns each name without its first letter if that is one of m c d k M, the name has more letters and is not min, cP, mol or kg, and otherwise unchanged, with the product of the prefix sizes as factor; an empty name raises IndexError. The result denotes the unit in which every name has the size its letters suggest, and for a single unit that is the original exactly when the name has that size or the exponent is 0.", "quantifier": "all halves, all names, all exponents, all positive unit systems", "why_tests_cant": "products over unbounded lists of arbitrary names; an equivalence", "anchors": ["cheme_calculations/units/units.py:MultiUnit.deconstruct_unit_prefixes", "cheme_calculations/units/_utility.py:get_prefix"]}
{"id": "C89", "title": "What one expansion pass leaves", "statement": "After a single pass the derived units left in each half, J aside, are the second, fourth, \u2026 of every run of adjacent derived units there; without W that holds for J too, and nothing is left exactly when no two derived units are adjacent.", "quantifier": "all halves without bound on their length", "why_tests_cant": "ranges over all lists; the loop deletes from the list it walks through", "anchors": ["cheme_calculations/units/units.py:MultiUnit.deconstruct_units"]}
{"id": "C90", "title": "What converting a single unit returns, defects included", "statement": "Converting between any two table names gives the ratio of the SI sizes times the errors of the two table entries, and there and back the product of the four; the conversion is right exactly for names outside MPa, psi, mile, lb (and, as targets, ft and in), and comes back exactly for the names listed. A target with a power gets the converted value raised to that power, which is right exactly for value 1 or power 1. A unit registered from any existing one converts by the given functions and the errors of the existing one.", "quantifier": "all reals as values, all table names of the linear classes, all powers, all registered functions", "why_tests_cant": "ranges over all real values and functions; an equivalence", "anchors": ["cheme_calculations/units/units.py:Unit.convert_to", "cheme_calculations/units/units.py:register_unit_from_existing"]}
{"id": "C91", "title": "Equality of units, exactly", "statement": "Two Units are equal exactly when their values, names and exponents are and their classes are the same or one is the plain Unit; two MultiUnits exactly when class and value agree and each half lists the same BaseUnits with the same texts, in any order and number. Equality is reflexive and symmetric, and fails to be transitive exactly for three Units of which only the middle one is of the plain class and the outer ones are of different classes.", "quantifier": "all Units, MultiUnits and numbers", "why_tests_cant": "ranges over all pairs and triples of objects", "anchors": ["cheme_calculations/units/units.py:Unit.__eq__", "cheme_calculations/units/units.py:MultiUnit.__eq__", "cheme_calculations/units/units.py:BaseUnit.__hash__"]}
{"id": "C92", "title": "Atom counts of every formula", "statement": "Every well-formed formula with groups, of any number and nesting, is counted in a known way (from the first parenthesis to the last as one group, with one digit as subscript) or refused; the counts are right exactly when that reading gives every element its number of atoms.", "quantifier": "all well-formed formulas with groups", "why_tests_cant": "ranges over all trees of groups", "anchors": ["cheme_calculations/reactions/balance.py:_parse_equation_side"]}
{"id": "C93", "title": "Which displayed units are read back", "statement": "The displayed unit of a MultiUnit read as a unit string gives the same units and exponents exactly when there are none, one, or one over one, without exponents. Superscripts of different decimals differ, and an exponent whose first decimal is 0 is shown without its decimals.", "quantifier": "all MultiUnits whose names are of plain characters", "why_tests_cant": "ranges over all lists of units", "anchors": ["cheme_calculations/units/units.py:MultiUnit.get_unit_string", "cheme_calculations/units/_utility.py:remove_zero", "cheme_calculations/units/units.py:MultiUnit.parse_units"]}
{"id": "C94", "title": "Log mean and equations of state, all cases", "statement": "The log mean temperature difference is computed from known differences in both arrangements and returns a value strictly between them or raises ZeroDivisionError or ValueError in known cases; cocurrent it is right exactly when the first difference equals the inlet temperature taken in its place, else too large or too small accordingly. Whatever van der Waals and Peng-Robinson settle on is a compressibility of the Redlich-Kwong form with their constants and never one of their own equation; states other than the two raise.", "quantifier": "all temperatures in one unit, all positive states", "why_tests_cant": "ranges over all reals and all fixed points of the iterations", "anchors": ["cheme_calculations/heat_transfer/heat_exchangers.py:deltat_logmean", "cheme_calculations/thermodynamics/cubic_equations.py:van_der_waals", "cheme_calculations/thermodynamics/cubic_equations.py:peng_robinson"]}
{"id": "C95", "title": "Dimensionless groups and heat flow with prefixes", "statement": "The Reynolds, Biot, Prandtl and Schmidt numbers and the heat flow through a wall are the documented quantity divided by the prefix sizes lost on the way, whatever the prefixes, and right exactly when these multiply to 1 or the quantity is 0.", "quantifier": "all arguments with admissible names, all coherent unit systems", "why_tests_cant": "ranges over all units and unit systems; an equivalence", "anchors": ["cheme_calculations/utility/dimensionless.py:reynolds", "cheme_calculations/utility/dimensionless.py:biot", "cheme_calculations/utility/dimensionless.py:prandtl", "cheme_calculations/utility/dimensionless.py:schmidt", "cheme_calculations/heat_transfer/steady_state_conduction.py:planar_heat"]}
{"id": "C96", "title": "When a result shares storage, exactly", "statement": "A MultiUnit returned by an operator is independent of every other object exactly when it was not obtained by scaling, negating, or adding to an existing one.", "quantifier": "all heaps, all operations", "why_tests_cant": "ranges over all object graphs; an equivalence", "anchors": ["cheme_calculations/units/units.py:MultiUnit.__mul__", "cheme_calculations/units/units.py:MultiUnit.__neg__", "cheme_calculations/units/units.py:MultiUnit.__add__"]}
{"id": "C97", "title": "The solver decorator under any keyword order", "statement": "A function decorated with solvable_for refuses, counts and chooses the unknown by counting off the values in the order in which they are written in the call, while its body receives what Python binds. The number of missing parameters is right in any order; with one missing parameter the body is told to solve for it exactly when None stands in its place in that order.", "quantifier": "all decorated functions with equal defaults and a ** parameter, all calls Python accepts", "why_tests_cant": "ranges over all signatures, arguments and keyword orders; an equivalence", "anchors": ["cheme_calculations/utility/equation_solving.py:solvable_for"]}
{"id": "C98", "title": "The planar wall solved for any unknown with prefixes", "statement": "For all arguments with admissible names in a coherent unit system, planar_heat and planar_flux return the documented quantity with the temperature difference (or the flux, or the thickness) off by the product of the prefixes and exponents lost in the multiplications, and are right exactly when that product is 1 or the quantity is 0.", "quantifier": "all arguments with admissible names, all coherent unit systems", "why_tests_cant": "ranges over all units and unit systems; an equivalence", "anchors": ["cheme_calculations/heat_transfer/steady_state_conduction.py:planar_heat", "cheme_calculations/heat_transfer/steady_state_conduction.py:planar_flux"]}
{"id": "C99", "title": "Rounding errors of sums and differences", "statement": "Any expression whose divisors and negative or broken powers contain no cancellation has the same outcome in floating point as in exact arithmetic, with the same class and units, and a value off by at most (1-u)^-n - 1 times the value of the same expression on absolute values with sums for differences, n being the number of roundings. This covers the planar wall functions for every unknown, planar mass transfer and the Grashof number; the Reynolds, Biot, Prandtl, Schmidt and Graetz numbers are accurate relative to their own value. No relative bound holds in general.", "quantifier": "all such expressions, all arithmetics of relative accuracy u", "why_tests_cant": "ranges over all expressions, values and arithmetics", "anchors": ["cheme_calculations/units/units.py:Unit.__sub__", "cheme_calculations/units/units.py:MultiUnit.__sub__", "cheme_calculations/units/units.py:MultiUnit.__add__", "cheme_calculations/heat_transfer/steady_state_conduction.py:planar_heat", "cheme_calculations/heat_transfer/steady_state_conduction.py:planar_flux", "cheme_calculations/mass_transfer/steady_state_diffusion.py:planar_mass_transfer_steady_state", "cheme_calculations/utility/dimensionless.py:grashof"]}
{"id": "C100", "title": "Sums and differences in IEEE binary64", "statement": "In binary64 every sum, difference, product and quotient of two finite numbers is the number nearest to the exact one (the even one of two), or infinity beyond the largest number. An expression whose divisors and powers contain no cancellation and whose absolute values stay between 2^-1000 and 2^1000 has the same outcome as in exact arithmetic, with the same class and units, and a value off by at most (1-u)^-n - 1 times the value of the same expression on absolute values; underflow of a cancelled value included. This covers the planar wall functions for every unknown, planar mass transfer and the Grashof number. All digits may be lost.", "quantifier": "all pairs of binary64 numbers; all such expressions and all binary64 inputs in range", "why_tests_cant": "ranges over all binary64 numbers and all expressions", "anchors": ["cheme_calculations/units/units.py:Unit.__sub__", "cheme_calculations/units/units.py:MultiUnit.__sub__", "cheme_calculations/units/units.py:MultiUnit.__add__", "cheme_calculations/heat_transfer/steady_state_conduction.py:planar_heat", "cheme_calculations/heat_transfer/steady_state_conduction.py:planar_flux", "cheme_calculations/mass_transfer/steady_state_diffusion.py:planar_mass_transfer_steady_state", "cheme_calculations/utility/dimensionless.py:grashof"]}
{"id": "C101", "title": "Shared halves are shared as a whole", "statement": "In every heap a program can reach, also one that appends to or combines halves of its MultiUnits, two halves in use are one list or have no BaseUnit in common. Appending to the top half of a MultiUnit, or combining it in place, therefore shows in exactly the objects that have the same list, each half of which changes in exactly that way, and in no other object.", "quantifier": "all programs, all heaps they reach, all objects in them", "why_tests_cant": "ranges over all programs that build, calculate, convert and change halves in any order", "anchors": ["cheme_calculations/units/units.py:MultiUnit.__init__", "cheme_calculations/units/units.py:MultiUnit.combine_units", "cheme_calculations/units/units.py:MultiUnit.__mul__", "cheme_calculations/units/units.py:MultiUnit.__neg__"]}
{"id": "C102", "title": "Which error a refused conversion raises", "statement": "A conversion of a MultiUnit to a target that can be parsed raises exactly one of IndexError, KeyError, ValueError, UnitConversionError and ZeroDivisionError: that of the first unit that cannot be handled, the target being prepared first and replaced last; UnitConversionError if all can be handled and the dimensions differ; ZeroDivisionError if they agree and the target counts as 0. In particular UnitConversionError is not the only error of a refused conversion.", "quantifier": "all MultiUnits, all targets", "why_tests_cant": "ranges over all units, exponents and values; an equivalence", "anchors": ["cheme_calculations/units/units.py:MultiUnit.convert_to", "cheme_calculations/units/units.py:MultiUnit.base_to_unit", "cheme_calculations/units/units.py:MultiUnit.convert_and_get_factor"]}
{"id": "C103", "title": "Water properties in floats", "statement": "With binary64 numbers get_water_properties uses, for every float temperature from 275 K to 1345 K, the two rows of the table around it or its own row, however close to a row it is; the texts it returns are those of the exact calculation, and every number is finite and within 2^-39 of its size of the exact one. For every other float, infinities and nan included, OutOfRangeProperty is raised.", "quantifier": "all binary64 temperatures", "why_tests_cant": "ranges over all floats, those next to a row included, where floor and ceil after a rounded division could pick another row", "anchors": ["cheme_calculations/utility/get_chemical_properties.py:get_water_properties", "cheme_calculations/utility/get_chemical_properties.py:get_property_data"]}
{"id": "C104", "title": "Equation-of-state calls find the extreme roots", "statement": "If the equation a liquid call iterates has a compressibility factor of at most 2/3, the calls settle on its least positive one. If the equation a Redlich-Kwong, Soave or van der Waals vapor call iterates has one of at least (1 + sqrt 2) beta, and beta <= 2/5, the calls settle on its greatest one. With q >= 6 and beta <= 8/11 a liquid call is within (5/q)^(n+1) beta of the root after n iterations, and at low reduced pressure the van der Waals and Peng-Robinson vapor calls are within a power of 4 q beta.", "quantifier": "all temperatures, pressures, critical constants and acentric factors meeting the conditions; all numbers of iterations", "why_tests_cant": "the limit of an iteration, over ranges of reals", "anchors": ["cheme_calculations/thermodynamics/cubic_equations.py"]}
{"id": "C105", "title": "Equation-of-state calls in binary64 stay close to the exact roots", "statement": "In binary64, with a power function accurate to u and temperatures, pressures and critical constants between 2^-100 and 2^100, a Redlich-Kwong vapor call with k = 0.42748 (P/Pc)/(T/Tc)^(5/2) <= 1/5 and beta <= 1/2 answers a finite number within (4k)^(n+1)/2 + 150 u of the greatest exact compressibility factor after n iterations; a liquid call with q >= 6 and beta <= 8/11 (sizes between 2^-50 and 2^50) is within (5.01/q)^(n+1) beta + 900 u beta of the least positive one. The same for the equation van der Waals iterates, with u = 2^-53 and any power function. For Soave's equation, and the equation Peng-Robinson's liquid calls iterate, 50 times these errors, where T <= 4 Tc, the acentric factor is at most 1 in size and the square root of alpha is at least 1/2. A Peng-Robinson vapor call with n + 1 iterations, k <= 1/5 and q k <= 1/6, is within 3/2 (4k)^n + 7500 u of the greatest compressibility factor of the equation it iterates.", "quantifier": "all binary64 temperatures, pressures, critical constants and acentric factors meeting the conditions; all numbers of iterations; all power functions with the accuracy", "why_tests_cant": "accumulated rounding over any number of iterations for all binary64 inputs; tests compare a few printed digits", "anchors": ["cheme_calculations/thermodynamics/cubic_equations.py"]}
{"id": "C106", "title": "The physical constants are right and usable", "statement": "The constants of the library have their true SI values up to half a unit of the last digit written (Boltzmann, Avogadro and Planck exactly), the gas constants agree with k N_A to 1e-4. Boltzmann's constant times Avogadro's is the gas constant, a molar quantity divided by Avogadro's constant is the quantity of one molecule, an amount times Avogadro's constant is a number of molecules, and a number divided by it is an amount.", "quantifier": "all unit systems, all molar quantities, all amounts and numbers", "why_tests_cant": "ranges over all molar quantities and unit systems; the tests use no constant", "anchors": ["cheme_calculations/utility/constants.py", "cheme_calculations/utility/constants.py:get_gas_constant"]}
{"id": "C107", "title": "Errors of the formulas with exp, log, sin and erf in inexact arithmetic", "statement": "In any arithmetic of relative accuracy u with functions exp, log, sin and erf of relative accuracy v, every formula of conduction, diffusion, pulse decay, log-mean difference and the Arrhenius equation (every unknown) has the outcome of exact arithmetic, class and units included, and a value off by at most the error carried along the run, wherever no divisor or argument of log may vanish. A rate constant is off by at most 1.1(|x| n u + u + v) of its value, x being its exponent and n the number of roundings in it; no multiple of u does for every exponent. The lumped-parameter temperature is off by at most (0.6 n u + 4u + 1.1v)(|Tf| + |To|) however long it cools; a half-space by at most (1.1 L|x| n u + 4u + 1.1v)(|Ts| + |To|), L bounding the slope of erf; the log mean of x and y by at most 7u(x+y)/|x-y| + 1.1v of its value. If v = u, the concentration a pulse leaves is off by at most 1.02 N u of its value, N being the roundings of the product with K + 1 for the exponential and K at least 1.02 |x| n; the flow through a pipe wall by at most 1.02 N u, with K + 1 for the logarithm and K at least 1.05 n / |ln(r2/r1)|. In SI units N is K + 12, K + 9 and K + 10 for the pulses of three, two and one dimensions, K + 8 for heat through a pipe.", "quantifier": "all arithmetics and function libraries of the given accuracy, all values and units", "why_tests_cant": "ranges over all arithmetics, function libraries and arguments; the tests compare a few values with a tolerance", "anchors": ["cheme_calculations/reactions/reaction_parameters.py:arrhenius", "cheme_calculations/heat_transfer/non_steady_state_conduction.py", "cheme_calculations/heat_transfer/steady_state_conduction.py:pipe_heat", "cheme_calculations/heat_transfer/heat_exchangers.py:deltat_logmean", "cheme_calculations/mass_transfer/non_steady_state_diffusion.py", "cheme_calculations/mass_transfer/steady_state_diffusion.py:pipe_mass_transfer_steady_state"]}
{"id": "C108", "title": "What exp, log, sin and erf are called with", "statement": "If the functions are accurate at the arguments they are called with, every bound of C107 holds, whatever they do elsewhere. In the lumped-parameter, slab, heat, pulse and rate formulas exp is never called with a positive number if the properties, times, activation energy and temperatures are not negative, in any arithmetic of accuracy at most 1/100, so math.exp cannot overflow; with a negative activation energy it is called beyond 709.8, where math.exp raises OverflowError. The bounds of the rate constant, the lumped-parameter temperature and the pulse in three dimensions hold if exp is accurate only up to a size B and 1.02 of the exponent does not exceed it.", "quantifier": "all arithmetics and function libraries of the given accuracy, all values and units, all numbers of terms", "why_tests_cant": "ranges over all arithmetics and arguments; the tests call the formulas with a few moderate values", "anchors": ["cheme_calculations/reactions/reaction_parameters.py:arrhenius", "cheme_calculations/heat_transfer/non_steady_state_conduction.py", "cheme_calculations/mass_transfer/diffusion_scenarios.py"]}
{"id": "C109", "title": "Results compare equal to what is read from a text", "statement": "A MultiUnit obtained by multiplying or dividing MultiUnits, or a MultiUnit and a Unit, is == to a MultiUnit read from a text exactly when class, value and units with their exponents agree, whether the exponents are ints or floats.", "quantifier": "all MultiUnits and Units, all texts", "why_tests_cant": "the difference between 2 and 2.0 is invisible when printed and appears only in set comparisons of particular results", "anchors": ["cheme_calculations/units/units.py:MultiUnit.__eq__", "cheme_calculations/units/units.py:BaseUnit.__hash__", "cheme_calculations/units/units.py:combine_units", "cheme_calculations/units/units.py:simplify_units"]}
{"id": "C110", "title": "Numbers before the formulas of an equation", "statement": "Numbers written before the formulas, with or without a blank, do not change the coefficients balance_equation finds or the exception it raises, so a balanced equation can be balanced again; they stay in the text, between the new coefficient and the formula, and the text is then not that of the balanced equation.", "quantifier": "all reactions of formulas with any groups, all numbers before them, any solver", "why_tests_cant": "ranges over all reactions and all numbers", "anchors": ["cheme_calculations/reactions/balance.py:balance_equation", "cheme_calculations/reactions/balance.py:_parse_equation_side", "cheme_calculations/reactions/balance.py:_get_chemical_dict"]}
{"id": "C111", "title": "Blanks in a chemical equation", "statement": "Blanks in the text of an equation do not change what balance_equation returns.", "quantifier": "all reactions of formulas with any groups, any blanks, any solver", "why_tests_cant": "ranges over all reactions and all placements of blanks", "anchors": ["cheme_calculations/reactions/balance.py:balance_equation", "cheme_calculations/reactions/balance.py:_get_chemical_dict"]}
{"id": "C112", "title": "Blanks in unit strings", "statement": "Blanks in a unit string do not change the unit it is read as.", "quantifier": "all unit strings of the documented grammar with any blanks", "why_tests_cant": "ranges over all unit strings and all placements of blanks", "anchors": ["cheme_calculations/units/units.py:MultiUnit.parse_units"]}
{"id": "C113", "title": "The order of the factors of a unit", "statement": "Writing the factors of a half of a unit in another order changes neither the equality and the quantity of the object nor what it can be added to, multiplied by, divided by and converted to.", "quantifier": "all objects, all permutations of their halves, all target strings of the documented grammar", "why_tests_cant": "ranges over all permutations of lists of any length and all target units", "anchors": ["cheme_calculations/units/units.py:MultiUnit.__eq__", "cheme_calculations/units/units.py:MultiUnit.__add__", "cheme_calculations/units/units.py:MultiUnit.__sub__", "cheme_calculations/units/units.py:MultiUnit.convert_to"]}
{"id": "C114", "title": "A reaction written in another order", "statement": "The coefficient that balance_equation prints for a molecule does not depend on the order of the molecules within a side, nor on which side is written first.", "quantifier": "all reactions between molecules with at most one group, all orders of writing them, all solvers accurate to 5e-10", "why_tests_cant": "ranges over all reactions, all permutations and all accurate solvers", "anchors": ["cheme_calculations/reactions/balance.py:balance_equation", "cheme_calculations/reactions/balance.py:_get_fraction_lcm"]}
{"id": "C115", "title": "Spellings of the same unit", "statement": "Two MultiUnits with the same value whose units give every name the same total exponent (m/s and m*s^-1, m*m and m^2) are equal, denote the same quantity, can be added, and give the same products and conversions.", "quantifier": "all pairs of objects, all other operands, all target strings", "why_tests_cant": "ranges over all ways to distribute exponents over any number of factors and all targets", "anchors": ["cheme_calculations/units/units.py:MultiUnit.__eq__", "cheme_calculations/units/units.py:MultiUnit.__add__", "cheme_calculations/units/units.py:MultiUnit.__mul__", "cheme_calculations/units/units.py:MultiUnit.convert_to"]}
{"id": "C116", "title": "Products and quotients of sums", "statement": "Whenever a sum or difference of two quantities is accepted, multiplying it by, or dividing it by, a number, a Unit or a MultiUnit gives the very object that adding or subtracting the two products or quotients gives.", "quantifier": "all pairs of quantities that can be added, all operands", "why_tests_cant": "ranges over all halves of any length, all values and all operands", "anchors": ["cheme_calculations/units/units.py:MultiUnit.__add__", "cheme_calculations/units/units.py:MultiUnit.__mul__", "cheme_calculations/units/units.py:MultiUnit.__truediv__", "cheme_calculations/units/units.py:Unit.__add__", "cheme_calculations/units/units.py:Unit.__mul__", "cheme_calculations/units/units.py:Unit.__truediv__"]}
{"id": "C117", "title": "Int and float exponents", "statement": "Whether an exponent is an int or an equal float makes no difference: every operator and every conversion, applied to operands that differ only in this, gives results that differ only in this, or raises the same exception.", "quantifier": "all operands, all powers, all targets, all conversion tables, all arithmetics of the values", "why_tests_cant": "ranges over all halves of any length, all mixtures of ints and floats, all number types", "anchors": ["cheme_calculations/units/units.py:MultiUnit", "cheme_calculations/units/units.py:Unit", "cheme_calculations/units/units.py:MultiUnit.convert_to"]}
{"id": "C118", "title": "The unit of a result does not depend on the numbers", "statement": "The class, names and exponents of the value of any expression, and of a converted object, depend only on the classes and units of the leaves, not on their numbers or number type; which operations and conversions are refused does not depend on the numbers either, except for divisions by zero.", "quantifier": "all expressions, all numbers, all number types, all tables and targets", "why_tests_cant": "ranges over all pairs of executions of all expressions over two number types", "anchors": ["cheme_calculations/units/units.py:MultiUnit", "cheme_calculations/units/units.py:Unit", "cheme_calculations/units/units.py:MultiUnit.convert_to", "cheme_calculations/units/units.py:Unit.convert_to"]}
{"id": "C119", "title": "Conversion commutes with sums, differences and multiples", "statement": "Whether the terms are converted and then added, or added and then converted, makes no difference; the same for differences, multiples by a number, quotients by a non-zero number and negatives.", "quantifier": "for all MultiUnits, tables, targets and numbers; for all tabulated Units of one class, values and targets; for temperatures, all pairs of scales", "why_tests_cant": "A test adds a few quantities in a few units; the claim is about every pair of values and every target, including the texts for which only one of the two orders might succeed.", "anchors": ["cheme_calculations/units/units.py:MultiUnit.convert_to", "cheme_calculations/units/units.py:Unit.convert_to", "cheme_calculations/units/units.py:MultiUnit.__add__", "cheme_calculations/units/units.py:Unit.__add__"]}
{"id": "C120", "title": "Converted values compare as before", "statement": "Of two quantities in the same unit, the smaller one is still the smaller after both are converted to another unit.", "quantifier": "for all pairs of MultiUnits with the same halves and all targets; all pairs of tabulated Units and targets; all temperatures and scales", "why_tests_cant": "Tests convert one value and compare with a number; whether the factor is positive for every unit text a user may write, exponents included, is a statement about all of them.", "anchors": ["cheme_calculations/units/units.py:MultiUnit.convert_to", "cheme_calculations/units/units.py:convert_and_get_factor", "cheme_calculations/units/units.py:Unit.convert_to"]}
{"id": "C121", "title": "Converting to the unit at hand changes nothing", "statement": "A quantity made from a unit text and converted to the same text is the same quantity, and the conversion succeeds.", "quantifier": "for all unit texts, values, classes and tables; for single units all names without a caret", "why_tests_cant": "The texts a user may write are unbounded; a test tries the common ones, for which no rounding, misreading or missing table entry shows.", "anchors": ["cheme_calculations/units/units.py:MultiUnit.convert_to", "cheme_calculations/units/units.py:Unit.convert_to"]}
{"id": "C122", "title": "Sums of quantities in different units", "statement": "Two quantities in different units are added or subtracted after converting the second to the unit of the first, or the first to that of the second; both give the same quantity.", "quantifier": "for all MultiUnits and tables for which one of the sums exists; for all values of Units of two names of one table; temperatures in two scales", "why_tests_cant": "A test adds one pair of quantities one way and compares with a number; that both ways agree is a statement about all pairs of units and values.", "anchors": ["cheme_calculations/units/units.py:MultiUnit.convert_to", "cheme_calculations/units/units.py:MultiUnit.__add__", "cheme_calculations/units/units.py:Unit.convert_to", "cheme_calculations/units/units.py:Unit.__add__"]}
{"id": "C123", "title": "Totals of lists of quantities", "statement": "A list of quantities in one unit adds up, in whatever order it is taken, to the sum of the values in that unit; the built-in sum() does so too.", "quantifier": "for all lists of any length, values, units, exponents and classes, and all orders of the list", "why_tests_cant": "A test adds two quantities; the failure of subclass objects begins with the third, and independence of the order is about all permutations of all lists.", "anchors": ["cheme_calculations/units/units.py:MultiUnit.__add__", "cheme_calculations/units/units.py:Unit.__add__"]}
