# Formal model of ChemE_Calculations: design

The repository (`/repo`, Python) was read as text; nothing in it was built or
changed.  One slip is on record: while inspecting the water table the data-only
module `cheme_calculations/utility/water_data.py` was executed once with
importlib; the `__pycache__` directory this left behind was removed.  The table
in the model was generated from the text of the file with `ast.literal_eval`.

## 1. Trusted base

* Coq 8.16.1's kernel (`coqc`), re-checked with `coqchk`.
* Axioms: every property theorem is followed by `Print Assumptions`.  The theorems
  about real numbers depend on axioms of the standard library's reals:
  `ClassicalDedekindReals.sig_forall_dec`, `ClassicalDedekindReals.sig_not_dec`,
  `FunctionalExtensionality.functional_extensionality_dep` and, where powers,
  logarithms or limits occur, `Classical_Prop.classic`.  The theorems about
  strings, lists, rationals, calls, chemical equations and heaps are closed under
  the global context.  No axioms are declared by this development and no library
  but Coq's own is used.
* The reading of the Python source: each definition cites the lines of `/repo`
  it models; this correspondence is by inspection.  `Conformance.v` replays
  the repository's own unit tests and docstring examples on the model; these are
  tests, not proofs.

## 2. What is modelled, and how

Files that model code (no proofs in them):

| file | models |
|---|---|
| `Py.v` | exceptions as values, string operations, `float(text)`, `str(number)`, int/float-tagged exponents |
| `Num.v` | the arithmetic interface of values, its real and rational instances |
| `UnitsData.v` | registries and tables of `units/units.py` 32-125, 1192-1463 |
| `UnitsStruct.v` | `_utility.py` and the list algorithms of `MultiUnit` (prefixes, cancel, combine, parse, deconstruct, simplify, display) |
| `Units.v` | classes, operators, conversions, `check_units`, registration |
| `Heap.v` | the same operators, construction and `convert_to` on references: which lists are shared, which are copied, what is changed in place |
| `Solve.v` | `utility/equation_solving.py` and Python's binding of call arguments |
| `Formulas.v` | `heat_transfer`, `mass_transfer`, `process_safety`, `reactions/reactor_design.py`, `reactions/reaction_parameters.py` (Arrhenius), `utility/dimensionless.py`, `utility/constants.py` |
| `Constants.v` | `AVAGADROS_CONSTANT` of `utility/constants.py` |
| `Correlations.v` | laminar heat transfer coefficients (with their conversion), `wilke_chang`, `fullers`, `integral_method` |
| `Rounding.v` | the same classes, operators, tables and conversions in inexact arithmetic: any float arithmetic, binary64 (on `spec_float`), and a count of roundings |
| `Range.v` | the model in binary64 with its range (any `x ** q`), and a bound on the sizes of the numbers of a run |
| `SumRange.v` | the same bound for runs with differences |
| `Func.v` | the formulas with pi, exp, log, sin and erf as terms, run in exact arithmetic or in any arithmetic with any such functions |
| `Print.v` | the texts of `Unit`, `MultiUnit` and `BaseUnit` (`__repr__`) with int and binary64 values |
| `Utility.v` | `powerset`, `_check_valid_parenthese` (called by nothing) |
| `FloatExp.v` | the operators, parsing and conversions with the arithmetic of exponents as a parameter: exact, or rounded to binary64; `get_exponent_total` |
| `WaterData.v`, `Water.v` | `utility/water_data.py`, `utility/get_chemical_properties.py` |
| `WaterFloat.v` | lines 44-62 and 100-116 of the latter in binary64 |
| `Eos.v` | `thermodynamics/cubic_equations.py` |
| `Balance.v` | `reactions/balance.py` and `Fraction.limit_denominator` |

Files that state what is meant, independently of the model: `Spec.v` (unit
systems), `Expr.v` (expressions), `ExprSpec.v` (what an expression evaluates to, factors lost included), `TextSpec.v`, `ConvSpec.v`, `UnitConvSpec.v`, `UnitErrSpec.v`, `OpSpec.v`,
`SolveSpec.v`, `FormulaSpec.v`, `ArrheniusSpec.v`, `PrefixSpec.v`, `PassSpec.v`, `ReadSpec.v`, `RefuseSpec.v`, `TransferSpec.v`, `ExchangeSpec.v`,
`KineticsSpec.v`, `CoefSpec.v`, `UnitBlankSpec.v`, `OrderSpec.v`, `RewriteSpec.v`, `SpellSpec.v`, `DistribSpec.v`, `AlikeSpec.v`, `StaticSpec.v`, `SignSpec.v`, `TotalSpec.v`, `RoundSpec.v`, `SumSpec.v`, `FuncSpec.v`, `FuncCount.v`, `FuncCalls.v`, `RangeSpec.v`, `B64Spec.v`, `FloatSpec.v`, `PrintSpec.v`, `UtilitySpec.v`, `WaterSpec.v`, `WaterFloatSpec.v`, `EosSpec.v`, `EosFoundSpec.v`, `EosFloatSpec.v`, `ConstSpec.v`, `BalanceSpec.v`, `HeapSpec.v`, `KindSpec.v`, `RegistrySpec.v`.  `*Facts.v`, `*Laws.v`, `*Cases.v`, `Heap{Pipe,Ops,Props,Share,Owner}.v`, `RoundErr.v`, `SumErr.v`, `Func{Err,Bounds,Decay,Mean,Pulse,Local}.v`, `*Exact.v`, `UnitConvMore.v`, `RangeTemp.v`, `B64Round.v`, `B64Full.v`, `Float{Round,Simplify,Ops,Convert}.v`, `Conv{Dims,Total}.v`, `OwnFloat.v`, `FracTies.v`, `Eos{Liquid,Monotone}.v`, `EosFloat{,Liquid,Calls,Alpha,Soave,Peng,PengVapor,Halves,Gas}.v` contain
proofs.  `Properties_*.v` contain the property theorems and their examples only.

Modelling decisions.

* **Values are exact** in all theorems but C76-C78, C83, C99, C100, C103, C105, C107, C108 and C121_float.  A Python number used
  as a value is a real (theorems) or a rational (executable conformance runs).
  Overflow, underflow, `inf` and `nan` are not modelled there; `OverflowError`,
  which the bare `except` of the prefix loop would turn into `UnknownPrefix`,
  cannot occur.  The model is generic in the number type.  C76 and C77 run it in an
  arbitrary arithmetic of bounded relative error: units and exceptions are those
  of the exact run and the value is off by a bounded number of roundings, so
  that equalities proved for exact values hold for floats up to that error.
  C83 proves the same of IEEE binary64 itself (Coq's `spec_float`), subnormals
  and infinities included, for runs whose numbers stay between 2^-1000 and
  2^1000, and shows two runs that leave the range.  C99 and C100 extend both to
  expressions in which values cancel; the error is then small against the absolute
  values only.  C107 adds pi, exp, log, sin and erf of bounded relative error, with
  the numbers written in the formulas, 2n+1 and (-1)^n exact; C108 shows that the
  functions matter only where they are called, and when exp does not overflow.  There every value is a float
  (a Python int is exact instead), and `x ** q` is any function accurate to a
  given error, since the C library's pow is specified nowhere.
* **Exponents** are exact rationals carrying the int/float tag, since `str` and
  hence `BaseUnit.__hash__` distinguish `2` from `2.0`.  `FloatExp.v` repeats the
  operators with exponents rounded to binary64 after every operation; C80 proves
  that both agree for exponents that are multiples of 1/256, say, and shows where
  they do not (0.1 + 0.2). C82 does the same for parsing and conversions.
* **Exceptions** are values of `res`.  `Unmodelled` marks behaviour outside the
  model (complex results, `inf`/`nan` texts, newlines and regular-expression
  characters inside chemical formulas); `OutOfFuel` marks a loop bound and is
  proved unreachable.
* **Loops that edit the list they iterate over** (`deconstruct_units`) are modelled
  with the exact index semantics of Python's list iterator, including the
  element skipped after a deletion.
* **Objects** are immutable values in `Units.v`.  `Heap.v` models references: cells
  are `BaseUnit`s, lists hold references to cells, MultiUnits hold references to
  lists; the default values of the constructor's list parameters are two lists that exist once.
  Temporary objects no one can reach are not allocated; `deepcopy` of a list
  holding one object twice is `Unmodelled` (theorem `C35_reachable` shows that
  programs do not build such lists); rebinding a local list is one write.
  `C35_unchanged` proves that the heap model computes what `Units.v` does.
* Strings are ASCII; hash collisions of CPython's `hash` are ignored (set
  membership of `BaseUnit`s is: equal names, equal exponents, equal text).
* **Calls** (`Solve.v`): positional and keyword arguments, defaults, `**kwargs`;
  `v == None` holds of None only.
* **Formulas**: every operator is the one of `Units.v`, in Python's order of
  evaluation; `math.log`, `exp`, `sin` are the real functions and refuse unit
  objects; `erf`, `erfc` are parameters.  The order of an Arrhenius relation is an
  exponent, its frequency factor a number or None.  Prints are dropped: the text of
  a unit object can always be computed.
* **Water**: the table is a transcription of the text of `water_data.py`; `floor`
  and `ceil` are exact.  In `WaterFloat.v` the temperature is a float; the numbers of
  the table are rounded to floats as literals are, the ints of the code are exact.
* **Balancing**: `numpy.linalg.lstsq` and the iteration order of sets are
  parameters; `C44` assumes accuracy of the former and nothing of the latter.
  The algorithm of `Fraction.limit_denominator` is modelled; the float divisions
  on lines 52 and 202 are rounded to binary64.
* **Printing** (`Print.v`): the value of a printed object is an int or a binary64
  float.  The text of a float is computed by search (the least number of digits for
  which one of the two decimals around it is read back), not by CPython's
  `dtoa`; that both agree rests on the documentation of `repr`.  The text of an
  exponent (`str_expo`) is modelled for exponents of at most 15 digits, at most 12
  of them decimals; `C84_exponent` proves that it is the text of the nearest float.
* **Not modelled**: numpy's rounding and negative zeros in `integral_method`, plotting,
  `print` calls, docstrings, type hints.

How the formula theorems are proved.  `SymFacts.v`: the units of a result do not
depend on the values, so they can be computed once per unit assignment (a sweep
over assignments, `SweepFacts.v`); `SimFacts.v`: a computation on rationals is
the computation on reals; `ParamFacts.v`: values and units do not interfere, so a
formula on unit objects has the value of the formula on numbers times the prefix
factors.  `ProbeFacts.v` does the same for formulas that mix SI prefixes: a run on
values 1 yields the unit and the prefix factor of every operation, and with them
the result for all values; `DenoteFacts.v` compares the unit with a text.

Specification side (`Spec.v`): a *unit system* assigns a positive real size to
every unit name; a quantity is value times the product of sizes to their
exponents.  A system is *coherent* if it respects SI prefixes on an explicit list
of symbols and the definitions of Pa, J, W, psi, cP, C, V.  This does not mention
any function of the model.

## 3. Plan per property

* C01 structural induction over lists; C02 refuted by witness, with the part that holds.
* C03, C04 invariants of the nested loops (net exponent per name).
* C05 product law over lists; refuted for `mile`, `day`, `mmHg`; for all names, what is returned and when it is the original.
* C06, C07 weight measure for the inner loop, depth measure for the outer loop; invariance of the quantity; C07 also as an equivalence.
* C08 a measure of the halves decreases with every derived unit put in; the fuel is proved sufficient.
* C09-C18, C20, C21 consequences of C03-C08; C12-C14, C16 hold only in part (prefix factor or exponent dropped), refuted by witness in general; C12-C14, C16, C55 also as equivalences: right exactly when nothing was dropped.
* C19, C22, C23 case analysis on operands; refuted parts by witness; C22 also as equivalences.
* C24-C27 tables over the reals; exact characterisation of the entries that are wrong.
* C28-C32 conversion: factor invariance plus comparison of dimension sums.  C28 and C32 also exactly, for all
  halves and targets: `ReadSpec.v` writes out what every unit is taken for (a number and a dimension), and a
  conversion succeeds exactly when everything is taken for something, no number in a denominator is zero and
  the dimensions agree; the value is then multiplied by the ratio of the numbers.  The result is right exactly
  when both units are misread by the same factor.
* C102 the pass keeps the order of the units it does not open; the first one that fails decides.
* C33 case analysis. C34 induction over registration histories. C35, C36, C64, C65 refinement: every step on the heap computes the pure step and changes only what it owns. C101 induction over programs: a new object has lists of its own or those of an older one.
* C37 exponent texts. C38 case analysis over call shapes; C97 the same for every order of keywords, with the exact condition under which the right unknown is chosen.
* C39, C40, C47-C51, C53 real analysis on formulas computed through the unit model or on plain numbers. C39 with prefixes: the factor by which the heat flow is off; C98 the same for every unknown. C48 for every order for which the function finds units. C49: the log mean for all temperatures, and when the two arrangements agree.
* C41, C42 finite table facts by computation, lifted to all real temperatures.  C103 the difference to a row is exact and the quotient stays below the next row; the errors of six roundings against the smaller of two rows.
* C43 induction over formulas, nested ones by the induction principle of NestedFacts: the counts returned for every formula and exactly when they are right; C44 with the least-squares solver as an oracle.
* C45 algebra on fixed points; the value returned for every state. C60 contraction, C61 case analysis, C104 monotone and contracting maps (`EosFoundSpec.v`), C105 the error of one step in binary64 carried through the contraction (`EosFloatSpec.v`). C46 consequence of the operator laws; with prefixes the factor lost (`ExprSpec.v`). C52 finite sweep over the registry, all values.
* C54-C56 induction over expressions; C56 also for all expressions, with the factors lost, and as an equivalence for expressions without sums. C57, C58 texts. C59 the water object. C62 refusals of the balancer. C63 continued fractions.
* C66-C73, C75 one probe per unit assignment, then real analysis on the closed form; that a result has another dimension is shown in a unit system with every length doubled.
* C74 sums of squares around the means; induction over the rounds; before order 1 only the sign of a number and nan matter.
* C76-C78 a relation between three runs of the model (exact, inexact, counting), kept by every operator and conversion; binary64 counterexamples by computation. C99 a second, weaker relation (error against the absolute values) kept by everything but division by such a value.
* C83 the same three-run relation, with a bound on sizes in place of the count alone; below it, correctness of rounding, product, quotient and sum of `spec_float` for results in range, proved from their definitions. C100 the same in the whole range, with the relation of C99; an underflow is one more rounding against absolute values above 2^-1000.
* C79 the order of the names handed over by the decorator.
* C80, C81 every exponent of the pipeline is a multiple of a fixed power of two and bounded, so rounding changes nothing; one bit and a factor of 8 per round of simplification, of which there are at most as many as the measure of C08; the division by 3 (V) never decides.
* C82 parsing rounds each exponent once (by cases on the text); in a conversion an exponent is kept, multiplied by the whole exponents of a definition, or turned from 1 into 2 or 3, and the class totals are sums of those, so sixteen times the width is enough room.
* C84 correct rounding of decimals over the whole range, from the definition of `spec_float`; intervals of decimals that are read as a given float; texts are cut at the first character that cannot belong to the part before. Decimals of at most 15 digits lie further apart than floats of normal size, so each is the only one read as its float. C58: lengths and characters of the text.
* C85 case analysis on the texts. C86 induction over lists; the depth of nesting is kept by every round of removal, and a text without () in it has depth-count zero only if empty.
* C87-C96 collect the exact statements about operators, prefix removal, expansion, conversions, equality, formulas, displayed units, log mean, groups and sharing; their theorems carry the number of the property they make exact.
* C109 an invariant of the exponents (float, or a multiple of 100) kept by every list algorithm; which exponents of one name end up as the int 0 when units are combined.
* C110 the element scanner and the group search skip digits, dots and blanks, so both equations give one linear system; lengths of texts.
* C111 splitting and stripping of a text with blanks.
* C112 as C01, with blanks that strip and float drop; star by a general computation.
* C113 from C01, C09, C10, C23 and C28_exact, whose right-hand side does not change under permutations when no unit is opened.
* C114 from C44: the smallest balance of a reaction is one of the reaction in any order.
* C115: a sum over the units of a half is a sum over names of their exponents; C28_exact for conversions.
* C116: the passes give halves with equal names and exponents when given such halves (int and float exponents mixed), and the same factor (TagFacts.v).
* C117: the same for every operator and conversion, pass by pass.
* C118: two executions side by side, over two number types.
* C119: conversion against sums, multiples and negatives; temperatures exactly.
* C120: the sign of the conversion factor, from the exponents of the degrees.
* C121: both halves of the conversion on the same unit, then C28_exact.
* C122: C119 with the round trips of C25 and C29.
* C123: the built-in `sum` is a left fold from 0, `total` one from the first entry; both in `TotalSpec.v`, over real values.

Not expressible here: accuracy of the physical correlations (no formal
counterpart in the code), what happens after an overflow, plotting,
numpy/scipy internals.
