# Formal model of the coastal structures toolbox

This directory holds a Rocq (Coq 8.16.1) model of the python package in
`/repo/deltares_coastal_structures_toolbox` and machine-checked proofs of the
properties listed in `properties.jsonl`.

Build: `cd rocq && coq_makefile -f _CoqProject -o Makefile && make -j4`.

## 1. Layout of `rocq/theories`

| directory | contents |
| --- | --- |
| `Lib`    | numbers, effects, tactics, and mathematics that has nothing to do with the toolbox (contractions, integrals, table lookup, strings) |
| `Spec`   | published formulas and small notions used in statements; imports nothing from `Model` |
| `Model`  | the python code, one file per python module (or group of near-identical modules); every definition cites file and lines |
| `Proofs` | bridge lemmas and analysis, function group by function group |
| `Props`  | the theorems `Cxx_...` with an `Example` beside them; `Props/Assumptions.v` prints the assumptions of each |

## 2. How the code is modelled

* **Numbers** (`Lib/Num.v`).  A python/numpy scalar is a value of
  `num := Fin r | PInf | NInf | NaN` with `r` an exact real.  Every operation
  (`+ - * /`, `np.power`, `np.sqrt`, `np.exp`, comparisons, `np.minimum`, ...)
  is total and follows the numpy float64 rules for NaN, infinities, division by
  zero, negative bases and so on.  "Argument not given" is `NaN`, as in the
  code (`np.nan` defaults).
* **Effects** (`Lib/Monad.v`).  A call returns the list of warnings it
  issued and either a value or a python exception (`ValueError`,
  `UnboundLocalError`, `IndexError`, `TypeError`, ...).  Exceptions are values
  of the model, never undefined behaviour of Coq.
* **Functions.**  Each python function has one Gallina definition, mirroring
  its branches in order.  Each carries the file and line range it models, and
  its simplifications.
* **Loops.**  `while n_iter <= max_iter` loops are structural recursion on the
  remaining iteration count.  Loops without a bound take a fuel argument and
  return `OutOfFuel`; theorems about them quantify over the fuel.
* **Recursion.**  The mutual recursion of the TAW run-up takes a depth and
  yields `RecursionError` when it is used up; the depth needed is a theorem.
* **External code.**  `dispersion.disper` (package `deltares_wave_toolbox`, not
  in the repository) is an arbitrary function argument.  Where a statement
  needs more than that, it assumes `yields_wave_number disper` (for positive
  finite frequency, depth and gravity the routine yields a positive finite
  number) or `solves_dispersion disper` (that number solves the dispersion
  relation); both are hypotheses of the theorem, in `Proofs/Dispersion.v`.

### Simplifications that hold everywhere

1. Arithmetic is exact real arithmetic plus the special values.  Rounding,
   overflow, underflow and signed zeros are not modelled.  This matters most
   where the code rounds (`floor(10 x)/10` in the KD tables, `np.round` in
   Jumelet 2024) and where it compares for equality.  The KD tables are modelled
   in double precision too (`Model/KD64.v`, property C74).
2. Scalar arguments are numpy float64 scalars: division by zero yields an
   infinity or NaN (with a numpy RuntimeWarning that is not modelled) where a
   plain python float would raise `ZeroDivisionError`.
3. Integer arguments are the same numbers as floats, except where the code
   asks for the type (`check_variable_validity_range`, local wavelength, input
   writers), where they are kept apart.
4. Array arguments are modelled where array handling is more than elementwise
   application of the scalar function, as listed in section 3; arguments are
   then one-dimensional.
5. Warning texts are modelled by their parameters (variable, formula, value,
   range), not as formatted strings; the python warnings filter is not modelled
   (a warning counts as issued each time `warnings.warn` is called).

## 3. Which code is modelled and which is not

Modelled: every function of every module below
`deltares_coastal_structures_toolbox/functions` (`core_utility`, `core_physics`,
`hydraulic/wave_overtopping`, `hydraulic/wave_runup`,
`hydraulic/wave_transmission`, `structural/forces_caisson`,
`structural/forces_crestwall`, `structural/stability_concrete_armour`,
`structural/stability_rock_armour`, `structural/stability_rock_rear`,
`structural/stability_toe_berm`), for scalar arguments.  Functions whose body
is empty (`check_validity_range` of Hudson, cubes, tetrapod, cubipod, Xbloc,
XblocPlus and `check_validity` of Goda 1967) have no definition or a trivial one.

The binding of arguments to parameters and the signatures of all functions are
modelled in `Calling` and `Signatures`.

Arrays are modelled for: `check_variable_validity_range`, local wavelength,
Briganti 2003, Goda 1967 (via `np.vectorize`; the arguments are given already
broadcast), the input writers; and, with broadcasting (`Lib/Arr.v`, models
`Arr*`), the basic quantities of `core_physics`, Van der Meer 1988, its
modification and 2021 rewriting, Scaravaglione 2025, Hudson and the concrete
units, cubes, the toes of Gerding, Van der Meer 1998 and Van Gent & Van
der Werf 2014, run-up of Van Gent 2001, velocities of Van Gent 2002, overtopping
of De Ridder 2024 and 2026, transmission of d'Angremond 1996 and Van Gent 2023,
set-up of Van Gent 2024, crest-wall forces, Kramer & Burcharth 2004, Etemad-Shahidi
2020 and 2021, Jumelet 2024, the rear-side formulas, run-up and overtopping of
TAW 2002 and of EurOtop 2007 and 2018, overtopping of caissons of Van Gent 2021,
overtopping of Van Gent 2025, caisson forces of Goda 1985 (not the dictionaries), caisson toes of
Takahashi 1990 (not the search for the wave height).

Not modelled:

* arrays in the remaining functions, arrays with several axes;
* formatting of numbers and file-system errors in the input writers;
* `__init__.py` re-exports, the documentation apart from the documented
  defaults (`Spec/Documented.v`), and the tests;
* packages outside the repository (numpy, pandas and `deltares_wave_toolbox`
  are described by the definitions in `Lib/Num.v`, `Model/Numpy.v`,
  `Model/Pandas.v` and the oracle `disper`).

## 4. How properties are stated and proved

* `Spec` contains the published formulas as plain real functions and relations.
  The usual route is a bridge lemma (model call on finite inputs = published
  formula) followed by real analysis on the formula.  Several functions that
  solve one equation for different unknowns are each shown equivalent to the
  same relation, so that they are mutually inverse by construction of the
  statement and not by comparing two pieces of model code.
* A property that the code violates is stated as a theorem named `..._refuted`
  with a concrete witness, next to the part that does hold.
* `seeded/LOG.jsonl` records the wrong programs that were tried against the
  theorems: the edit of the model, the claim it breaks and the theorems that
  failed.  Theorems that survived a wrong program were tightened.

## 5. The 88 properties

For each: what is modelled, how it is proved, what is left out.

* **C01 Validity-range check flags exactly the out-of-range values** (proved;
  `Props/Core.v`).  Model `CoreUtility.check_variable_validity_range` over a
  value that is an int, a float or an array (list). The theorem describes
  results and warnings by `Forall2`/filter on the list of values; induction on
  that list.
* **C02 Wave steepness and Iribarren number are Froude-scale invariant**
  (proved; `Props/Core.v`).  Model `CorePhysics`. The model at finite
  arguments is shown equal to the textbook definitions of `Spec/Waves.v`; the
  rest is real algebra. The Iribarren number ignores a non-standard g, as the
  code does.
* **C03 Stone mass and nominal diameter convert back and forth without loss**
  (proved; `Props/Core.v`).  Model `CorePhysics`. Power rules for the cube and
  the cube root; monotonicity from `Rpower`.
* **C04 Dn50-or-M50 argument resolution** (proved; `Props/Core.v`).  Model
  `CorePhysics.check_usage_Dn50_or_M50` for scalars, all four combinations of
  missing arguments and the warning; the diameter is characterised as the one
  whose mass is M50.
* **C05 Damage numbers S and Nod convert back and forth** (proved;
  `Props/Core.v`).  Model `CorePhysics`; algebra, with G and 1-nv non-zero.
* **C06 Stability-number solver completes the missing quantity** (proved;
  `Props/Core.v`).  Model `CorePhysics.check_usage_stabilitynumber`; case
  analysis on which arguments are missing, the number of missing ones being
  counted independently.
* **C07 Local wavelength: which argument shapes work, and what they return**
  (proved; `Props/Core.v`).  Model `CorePhysics.calculate_local_wavelength`
  over scalar/array arguments with `len` of a float raising TypeError.
  `disper` is an arbitrary function, so the statement holds for every
  dispersion routine.  Refutations with a witness:
  `C07_period_array_scalar_depth_refuted`.
* **C08 Oblique-wave factors of TAW/EurOtop are bounded, even and decreasing
  in obliqueness** (proved; `Props/RunupTAW.v`).  Model `RunupTAW2002`,
  `OvertoppingTAW2002`; the factor is piecewise linear, cases on sign and on
  the limit of 80 degrees.
* **C09 Berm influence factor always lies in [0.6, 1]** (proved;
  `Props/RunupTAW.v`).  Model `RunupTAW2002.calculate_influence_berm_gamma_b`.
  The range is proved for all `num` arguments (NaN and infinities included),
  the formula against `Spec/Taw.v`.
* **C10 Adjusted roughness factor: where it is between gamma_f and 1 and where
  it is not** (proved; `Props/RunupTAW.v`).  Model
  `RunupTAW2002.calculate_adjusted_influence_roughness_gamma_f`; explicit
  regions, explicit witness above one.  Refutations with a witness:
  `C10_at_most_one_refuted`.
* **C11 TAW run-up height is the smaller of the slope and maximum formulas,
  and the flag says which** (proved; `Props/RunupTAW.v`).  Model
  `RunupTAW2002` on its non-iterative path. The run-up is compared with the
  minimum of the two published expressions in `Spec/Taw.v`; the flag is an
  equivalence.  Refutations with a witness: `C11_positive_refuted`.
* **C12 TAW run-up iteration terminates and reports a fixed point up to the
  tolerance** (proved; `Props/RunupIteration.v`, `Props/RunupTAW.v`).  Model
  `RunupTAW2002.iteration_procedure_z2p`, mutual recursion of the two
  functions unfolded with a depth counter that yields RecursionError; it is
  proved that this never happens. Convergence by a contraction argument
  (`Lib/Contraction.v`, `Props/RunupIteration.v`); a period-two orbit refutes
  it in general. A convergence theorem for every berm position is not claimed
  (it is false).  Refutations with a witness: `C12_converges_refuted`.
* **C13 TAW overtopping discharge and crest freeboard are inverse at standard
  gravity, and only there** (proved; `Props/OvertoppingTAW.v`).  Models
  `OvertoppingTAW2002` and the run-up module it calls. Published discharge
  formula in `Spec/Taw.v`; inverse by logarithm rules in each regime; the flag
  as an equivalence. Composite slopes are reduced to the simple slope with the
  factor of the berm procedure.  Refutations with a witness:
  `C13_gravity_refuted`.
* **C14 TAW overtopping discharge responds monotonically** (proved;
  `Props/OvertoppingTAW.v`).  Same model; monotonicity of exponentials and of
  the minimum of two expressions.  Refutations with a witness:
  `C14_berm_refuted`, `C14_roughness_refuted`.
* **C15 TAW overtopping: non-zero sigma without best fit never yields a
  result** (proved; `Props/OvertoppingTAW.v`).  Same model; the branch that
  leaves c1..c4 unbound is modelled as UnboundLocalError.
* **C16 TAW simple slope without a berm factor: run-up fails, overtopping
  works** (proved; `Props/BermProcedure.v`, `Props/OvertoppingTAW.v`,
  `Props/RunupTAW.v`).  Same models; `Props/BermProcedure.v` shows for every
  input what the berm procedure does and when it raises.
* **C17 EurOtop 2018 run-up ignores a supplied oblique-wave factor** (proved;
  `Props/RunupEurotop.v`).  Model `RunupEurotop2018`; the argument is dropped
  by the code, so independence is an equality of calls including warnings.
* **C18 EurOtop 2018 discharge and freeboard: where they are inverse**
  (proved; `Props/OvertoppingEurotop18.v`).  Model `OvertoppingEurotop2018`;
  the Weibull-type formula (exponent 1.3) and its inverse in
  `Proofs/Weibull.v`.  Refutations with a witness: `C18_rough_refuted`.
* **C19 EurOtop 2007 rubble-mound discharge and freeboard are inverse**
  (proved; `Props/OvertoppingEurotop07.v`).  Model `OvertoppingEurotop2007`;
  exponent one, otherwise as C18.
* **C20 Van Gent 2001 run-up is smooth at the regime boundary, increasing,
  bounded and ordered by exceedance** (proved; `Props/RunupVanGent.v`).  Model
  `VanGent2001`; curve in `Spec/Runup.v`, derivative at the junction via the
  mean value theorem in `Proofs/Runup2001.v`.
* **C21 Van Gent 2001 run-up inversion is exact at its fixed points** (proved;
  `Props/RunupVanGent.v`).  Same model; repeated inversion is a contraction on
  the logarithm of the height.
* **C22 Van Gent 2002 crest velocity and run-up level are inverse** (proved;
  `Props/RunupVanGent.v`).  Model `VanGent2002Velocity`; square root and power
  rules, NaN for negative bases.
* **C23 De Ridder 2024 discharge and freeboard are inverse at standard
  gravity** (proved; `Props/OvertoppingDeRidder24.v`).  Model `DeRidder2024`;
  relation between freeboard and discharge in `Spec/Overtopping.v`, both
  functions shown equivalent to it. Warnings for finite arguments here, for
  all arguments in C58.  Refutations with a witness:
  `C23_eq24_round_trip_any_gravity_refuted`.
* **C24 De Ridder 2026 discharge and freeboard are inverse; obliqueness factor
  is bounded** (proved; `Props/OvertoppingDeRidder26.v`).  Model
  `DeRidder2026`; as C23.
* **C25 Van Gent 2021 caisson overtopping: inverse when swell height is given,
  no number when it is left at its default** (proved;
  `Props/OvertoppingCaisson.v`).  Model `VanGent2021Caisson`; all combinations
  of crossing seas, short-crestedness and parapet.  Refutations with a
  witness: `C25_default_call_refuted`.
* **C26 Van Gent 2025 discharge and freeboard: where they are inverse**
  (proved; `Props/OvertoppingVanGent25.v`).  Model `VanGent2025` without wind;
  relation and regimes in `Spec/Overtopping.v`.  Refutations with a witness:
  `C26_design_round_trip_refuted`.
* **C27 Van Gent 2025 influence factors are continuous at their break points
  and bounded** (proved; `Props/OvertoppingVanGent25.v`).  Model `VanGent2025`
  influence factors; at each break point the two adjoining expressions agree;
  bounds and monotonicity by real algebra.
* **C28 Van Gent 2025 with wind: the discharge factor and the iteration for
  the freeboard** (proved; `Props/OvertoppingWind.v`).  Model `VanGent2025`
  with wind: the loop is structural recursion on max_iter - n_iter.
  Monotone-iteration and contraction arguments in `Proofs/Wind.v`.
  Refutations with a witness: `C28_negative_discharge_refuted`.
* **C29 D'Angremond transmission is clipped, decreasing in freeboard, and
  larger for impermeable structures** (proved; `Props/TransDAngremond.v`).
  Model `DAngremond1996`; clipped formula in `Spec/Transmission.v`,
  monotonicity of powers and exponentials.
* **C30 Briganti transmission stays in [0.05, 0.93] and joins D'Angremond for
  narrow crests** (proved; `Props/TransBriganti.v`).  Model `Briganti2003`,
  both the scalar branch and the `np.vectorize` branch (over one list of
  tuples, broadcasting assumed).  Refutations with a witness:
  `C30_decreasing_in_width_refuted`.
* **C31 Goda 1967 transmission: scalar range, non-monotone boundary, and
  truncation of arrays** (proved; `Props/TransGoda.v`).  Models `Goda1967`,
  `Numpy.vectorize`: the dtype of the first result is applied to all.
  Broadcasting assumed.  Refutations with a witness:
  `C31_decreasing_in_freeboard_refuted`, `C31_array_elementwise_refuted`.
* **C32 Van Gent 2023 transmission lies strictly between 0 and 1 and decreases
  with freeboard** (proved; `Props/TransVanGent.v`).  Model `VanGent2023`;
  bounds and derivative sign of the hyperbolic tangent.
* **C33 Goda pressures are non-negative and ordered** (proved;
  `Props/CaissonGoda.v`).  Model `Goda1985`; the wave length comes from
  `disper`, which is only assumed to yield a positive wave number
  (`yields_wave_number`). Coefficients in `Spec/Caisson.v`.
* **C34 Goda force and moment are the integrals of the pressure diagram**
  (proved; `Props/CaissonGoda.v`).  Same model; integrals are Riemann
  integrals of the standard library (`Lib/Integral.v`), the diagram is stated
  independently of the force formulas.
* **C35 Goda heel bearing pressure balances the vertical load** (proved;
  `Props/CaissonGoda.v`).  Same model; the linear reaction below the caisson
  is described by its resultant and moment.
* **C36 Goda impulsive-breaking check** (proved; `Props/CaissonGoda.v`).  Same
  model; the two sets of conditions are stated in `Spec/Caisson.v`.
* **C37 Crest-wall forces are non-negative for perpendicular waves, and not
  for oblique waves** (proved; `Props/CrestWall.v`).  Model `CrestWall2019`;
  loads in `Spec/CrestWall.v`.  Refutations with a witness:
  `C37_vertical_without_runup_refuted`, `C37_horizontal_oblique_refuted`.
* **C38 Hudson unit mass and wave height are inverse for every unit type**
  (proved; `Props/Hudson.v`).  Models `Hudson1959`, `HudsonUnits`; power
  rules.
* **C39 Hudson damage table lookup** (proved; `Props/Hudson.v`).  Models
  `Hudson1959.lookup_table_damage_factors`, `Lib/Table.v` (searchsorted on the
  tabulated percentages), `Lib/Str.v` (lower, replace). Strings are ASCII.
  Refutations with a witness: `C39_tabulated_percentage_refuted`.
* **C40 Stability coefficient KD of single-layer units decreases with seabed
  slope and stays within the table** (proved; `Props/Hudson.v`).  Model
  `HudsonUnits`; floor to one decimal on exact reals (binary rounding is not
  modelled, a slope whose KD lies exactly on a multiple of 0.1 may differ in
  floating point).
* **C41 Cube armour formulas are mutually inverse** (proved;
  `Props/ConcreteUnits.v`).  Model `Cubes`.
* **C42 Xbloc and XblocPlus sizing functions are mutually inverse, and
  correction factors never reduce the unit** (proved;
  `Props/ConcreteUnits.v`).  Model `Xbloc` (both modules); steps of the
  correction factors stated interval by interval.  Refutations with a witness:
  `C42_structure_slope_monotone_refuted`,
  `C42_reference_slope_uncorrected_refuted`.
* **C43 Van der Meer 1988 rock formulas agree at the regime boundary and
  invert one another** (proved; `Props/RockVdM.v`).  Model `VanderMeer1988`;
  one relation in `Spec/Rock.v` and every function equivalent to it; the
  wave-height function scans two candidates.  Refutations with a witness:
  `C43_wave_height_ignores_other_gravity_refuted`.
* **C44 Modified and 2021 Van der Meer formulas agree at the regime boundary
  and invert one another** (proved; `Props/RockVdM.v`).  Models
  `VanderMeer1988Modified`, `VanderMeer2021` (in the same file).
* **C45 Etemad-Shahidi 2020 rock formulas: inversion and iteration** (proved;
  `Props/RockEtemad.v`).  Model `EtemadShahidi2020`; iteration by contraction
  in `Proofs/Etemad.v`.  Refutations with a witness:
  `C45_round_trip_other_water_density_refuted`.
* **C46 Jumelet 2024 rock formulas: inversion, plunging fraction, whole number
  of waves** (proved; `Props/RockJumelet.v`).  Model `Jumelet2024`; np.round
  is rounding of exact reals to a nearest integer, ties to even.  Refutations
  with a witness: `C46_fraction_at_most_one_refuted`,
  `C46_search_finds_solution_refuted`.
* **C47 Kramer-Burcharth low-crested solver: residual and silent
  non-convergence** (proved; `Props/RockKramer.v`).  Model
  `KramerBurcharth2004`; residual from the stopping criterion, contraction
  within the published range, explicit two-cycle outside.  Refutations with a
  witness: `C47_default_diameter_satisfies_relation_refuted`,
  `C47_diameter_unique_refuted`.
* **C48 Scaravaglione 2025 rock formulas are mutually inverse** (proved;
  `Props/RockScaravaglione.v`).  Model `Scaravaglione2025`.
* **C49 Van Gent 2007 rear-side formulas: the diameter is not the exact
  inverse of the damage** (proved; `Props/RearVanGent.v`).  Models
  `RearVanGent2007`, `VanGent2001`; the search is structural recursion on the
  remaining iterations, `Proofs/RearSearch.v`.  Refutations with a witness:
  `C49_no_damage_below_crest_refuted`.
* **C50 Van Gent & Pozueta 2004 rear-side formulas are mutually inverse**
  (proved; `Props/RearPozueta.v`).  Models `RearVanGentPozueta2004`,
  `VanGent2001`; as C49.
* **C51 Gerding 1993 toe formulas are mutually inverse** (proved;
  `Props/ToeGerding.v`).  Model `Gerding1993`.
* **C52 Van der Meer 1998 toe formulas are mutually inverse; the validity
  check uses the wrong stability number** (proved; `Props/ToeVanderMeer.v`).
  Model `VanderMeer1998`.  Refutations with a witness:
  `C52_stability_check_refuted`.
* **C53 Etemad-Shahidi 2021 toe: the wave-height loop is not bounded by
  max_iter** (proved; `Props/ToeEtemad.v`).  Model `EtemadShahidi2021`; the
  loop has no bound in the code, the model takes fuel and the theorems say for
  which inputs some fuel suffices and for which none does.  Refutations with a
  witness: `C53_max_iter_bounds_the_loop_refuted`.
* **C54 Van Gent & Van der Werf 2014 toe: diameter and damage differ by a
  fixed factor** (proved; `Props/ToeVanGentVanderWerf.v`).  Model
  `VanGentVanderWerf2014`.  Refutations with a witness:
  `C54_exact_inverse_refuted`.
* **C55 Takahashi 1990 caisson toe: lower bound, crashes and endless search**
  (proved; `Props/ToeTakahashi.v`).  Model `Takahashi1990`; `disper` an
  oracle, dispersion relation in `Spec/Dispersion.v`; searches with fuel as
  C53.
* **C56 Neural-network and XGBoost input writers put every argument in the
  documented column** (proved; `Props/Writers.v`).  Models
  `OvertoppingVanGent2007`, `OvertoppingDenBieman2021`, `Pandas`. The file is
  a list of lines, each a comment or a row of numbers; pandas' DataFrame and
  to_csv are modelled as documented. Formatting of numbers and file-system
  errors are not expressible in this model.
* **C57 Van Gent 2024 wave set-up** (proved; `Props/SetupVanGent.v`).  Model
  `VanGent2024Setup`.
* **C58 Validity warnings are exactly those of the documented ranges**
  (proved; `Props/CaissonGoda.v`, `Props/CrestWall.v`,
  `Props/OvertoppingEurotop18.v`, `Props/OvertoppingTAW.v`,
  `Props/RangesHydraulic.v`, `Props/RangesRock.v`, `Props/RangesToe.v`,
  `Props/RunupEurotop.v`, `Props/RunupTAW.v`).  All models with a validity
  check. `Spec/Reports.v` gives the meaning of a list of ranges; for each
  function the list is stated and the warnings proved to be those of the list,
  for all arguments including NaN and infinities.
* **C59 Relative density, stability number and critical Iribarren number**
  (proved; `Props/CoreStability.v`).  Model `CorePhysics`; uniqueness of the
  crossing by monotonicity.
* **C60 Goda dictionaries agree with the returned tuples** (proved;
  `Props/CaissonGoda.v`).  Model `Goda1985`; dictionaries are association
  lists in insertion order.
* **C61 Calls with arrays work place by place** (proved;
  `Props/ArraysArmour.v`, `Props/ArraysCore.v`, `Props/ArraysEtemad.v`,
  `Props/ArraysHydraulic.v`, `Props/ArraysIteration.v`, `Props/ArraysRear.v`,
  `Props/ArraysRock.v`, `Props/ArraysToe.v`, `Props/ArraysToeEtemad.v`,
  `Props/ArraysWall.v`).  Models `Arr*` over `Lib/Arr.v` (arrays with at most
  one axis, broadcasting as in numpy); `Spec/Arrays.v` says what place by
  place means. One theorem per function, by compositionality of broadcasting
  (`Proofs/Arrays.v`). The array models are separate transcriptions of the
  same lines as the scalar models, the theorems relate the two.
* **C62 Where calls with arrays are not calls for each place** (proved;
  `Props/ArraysLimits.v`).  Same models, and `ArrVanGent2023`.  Refutations
  with a witness: `C62_sizes_refuted`, `C62_default_density_refuted`,
  `C62_warnings_refuted`, `C62_periods_refuted`.
* **C63 Iterations over arrays are made for all places together** (proved;
  `Props/ArraysEtemadLoops.v`, `Props/ArraysIteration.v`,
  `Props/ArraysRearLoops.v`, `Props/ArraysToeEtemad.v`).  Array models of the
  iterating functions over `Lib/ArrLoop.v`; `Spec/ArrayLoops.v` says what
  iterating together means. The loop over arrays is related to the loops of
  the places by an induction on the remaining iterations
  (`Proofs/ArrayLoops.v`).  Refutations with a witness:
  `C63_kramer_Dn50_elementwise_refuted`.
* **C64 Run-up and overtopping of TAW (2002) take arrays only without a
  computed berm** (proved; `Props/ArraysOvertoppingTAW.v`,
  `Props/ArraysRunupTAW.v`).  Models `ArrRunupTAW2002`,
  `ArrOvertoppingTAW2002` over `Lib/ArrFlags.v` (truth values, `np.min` of a
  list); `Spec/ArrayFlags.v` says what place by place means for a pair of
  numbers and flags. The errors are proved by showing that no step raises
  anything but ValueError and that the influence of the berm never returns for
  an array.
* **C65 Validity checks with arrays warn about exactly the places that are out
  of range** (proved; `Props/ArraysWarnings.v`).  Array models of the validity
  checks; one theorem per check, by composing single checks, guards and
  sequences (`Proofs/ArrayWarnings.v`).
* **C66 EurOtop with arrays: place by place, but not with an array of wave
  periods only** (proved; `Props/ArraysOvertoppingEurotop.v`,
  `Props/ArraysRunupEurotop.v`).  Models `ArrOvertoppingEurotop2007`,
  `ArrRunupEurotop2018`, `ArrOvertoppingEurotop2018`; `Spec/ArrayStacks.v`
  says when two results of a call can be put on top of each other. A call is
  rewritten into the two expressions that are stacked (`Proofs/ArrayStacks.v`,
  `Proofs/ArrayEurotop.v`); each expression is shown to have exactly the
  common shape of its arguments. The run-up follows from C64.
* **C67 Formulas called with arrays report exactly what is out of range at
  some place** (proved; `Props/CallsArmour.v`, `Props/CallsEtemad.v`,
  `Props/CallsExamples.v`, `Props/CallsHydraulic.v`, `Props/CallsRear.v`,
  `Props/CallsRock.v`, `Props/CallsToe.v`, `Props/CallsToeEtemad.v`,
  `Props/CallsWall.v`).  Same models as C61; `Spec/ArrayCalls.v` says how a
  call with arrays ends and what it reports. One theorem per function, by
  composing results (as for C61) and warnings (as for C65) through each step
  of the function (`Proofs/ArrayCalls.v`); quantities checked after they were
  computed appear as scalar calls in the hypothesis. Left out: functions whose
  tables raise for single places, the iterations (C63), TAW and EurOtop.
  Refutations with a witness: `C67_mixed_refuted`.
* **C68 Xbloc sizes work place by place, the Xbloc correction factors want one
  number** (proved; `Props/ArraysXbloc.v`).  Model `ArrXbloc`;
  `Spec/ArrayOne.v` says what wanting one number means. Truth values of arrays
  (`if x < y`) raise ValueError unless there is exactly one entry.
* **C69 Van Gent (2021) for caissons with arrays: place by place, one
  influence factor, one swell height** (proved; `Props/ArraysCaisson.v`).
  Model `ArrVanGent2021Caisson`; the call is rewritten into the expression
  that is returned, the check at the end being shown to run whenever the
  arguments go together; the warnings as for C67.
* **C70 Van Gent (2025) with arrays: place by place, with wind only for a
  crest that fits** (proved; `Props/ArraysVanGent2025.v`).  Model
  `ArrVanGent2025`; the call is rewritten into two expressions with the same
  factors, stacked, then adjusted and checked; the loop of the freeboard is
  treated as in C63, against the recurrence `windy` of `Spec/ArrayWide.v`.
* **C71 Goda (1985) with arrays: the angle, wave height and freeboard are one
  number, of several periods the first counts** (proved;
  `Props/ArraysGoda.v`).  Model `ArrGoda1985`; every assignment is an
  expression whose arguments bear on its shape, so shapes and entries follow
  assignment by assignment; a returned call is taken apart to find which
  arguments were one number. `Spec/ArrayCaisson.v` says which periods and
  depths go together.
* **C72 Takahashi (1990) with arrays: depths need as many periods, the search
  for the depth takes one float as wave height** (proved;
  `Props/ArraysTakahashi.v`).  Model `ArrTakahashi1990` (without the search
  for the wave height); the stability number is an expression of wave height,
  wave length, depth, toe width and angle; the search follows the scalar loop
  step by step, and everything before the truth value of its first test is
  taken apart to find which arguments were one number.
* **C73 The listed unit properties agree with the functions of the units, with
  exceptions** (proved; `Props/UnitProperties.v`).  Model `UnitProperties`
  (the dictionaries and reading an entry as KD); published coefficients in
  `Spec/Units.v`; from C38 (mass and wave height implement the Hudson
  relation), C40 (seabed slope) and real arithmetic.  Refutations with a
  witness: `C73_accropode_bounds_refuted`, `C73_common_name_refuted`.
* **C74 In double precision KD follows the design curve as well, but loses 0.1
  at a seabed slope of 5 % for Accropodes** (proved; `Props/KD64.v`).  Model
  `KD64`, on reals with every operation followed by `round64`
  (`Lib/Binary64.v`: nearest number of 53 bits, ties to even, unbounded
  exponent); rounding is monotone and exact on doubles, which gives order and
  limits; a relative error of 2^-53 per operation gives the distance to the
  curve; the constants are computed as fractions with a power of two below.
  Refutations with a witness: `C74_accropode_5_refuted`.
* **C75 Overtopping and run-up with arrays warn as the scalar functions do at
  some place** (proved; `Props/ArraysReports.v`).  The array models of C64,
  C66, C69 and C70 and the scalar models; everything in a call but its
  validity check issues no warning (`quiet`), so that the warnings of the call
  are those of the check on values that stand, at every place, for the values
  the scalar function checks; the check itself is treated as in C65. Spec
  `warned` and `silent` in `Spec/ArrayReports.v`.
* **C76 Formulas give the same answer on every scale** (proved;
  `Props/SimilarityForces.v`, `Props/SimilarityHydraulic.v`,
  `Props/SimilarityLimits.v`, `Props/SimilarityStability.v`).  The existing
  scalar models on two scales. `Spec/Similarity.v` gives the factor of each
  dimension (special values do not scale) and says when two calls are similar.
  The proof (`Proofs/Similarity.v`) follows each function expression by
  expression: quotients, powers, roots, comparisons and validity checks of
  scaled values have the dimension they should have, and every check is on a
  number without dimension; the loops (`Proofs/SimilarityLoops.v`) go through
  the same states on both scales. Functions in which the density of water is
  fixed at 1025 are on another length scale only. Not covered: slopes with a
  berm given by its two slopes (their iteration stops at an absolute
  tolerance), the wave height of Etemad-Shahidi (2021) (likewise), the
  searches of Takahashi (1990), and Van Gent (2023) (the default depth is
  1e100 m).  Refutations with a witness: `C76_kramer2004_tolerance_refuted`,
  `C76_vandermeer1998_warnings_refuted`, `C76_pozueta2004_start_refuted`.
* **C77 Larger waves give more overtopping and ask for a higher crest**
  (proved; `Props/ResponseEurotop.v`, `Props/ResponseFreeboard.v`,
  `Props/ResponseVanGent.v`).  The existing scalar models. `Spec/Response.v`
  says when one result is larger than another. The roughness adjustment is not
  monotone, so the proofs compare wave height times adjusted roughness on both
  calls (`Proofs/Response.v`): with u the root of the wave height the adjusted
  factor is a + b K / u on its middle range, and u^2 times it grows for
  factors of at least 0.1, u times it for factors of at least 0.18.
  `Props/ResponseEurotop.v`, `Props/ResponseVanGent.v`; the crest levels
  (`Props/ResponseFreeboard.v`) follow from the round trips. Not covered:
  slopes with a berm in EurOtop (2018), composite slopes, the wind factor.
  Refutations with a witness: `C77_taw2002_rough_berm_refuted`,
  `C77_eurotop2007_period_refuted`.
* **C78 Larger waves ask for larger stones** (proved;
  `Props/ResponseArmour.v`, `Props/ResponseToe.v`, `Props/ResponseUnits.v`).
  The existing scalar models and `Spec/Response.v` (`grows`: both results are
  positive numbers, the second not smaller, and larger when the stated
  condition holds; `rises`: the same for results that may be negative).
  `Proofs/Stones.v` puts the Van der Meer relation in logarithms, where the
  diameter is a sum with one bend at the critical similarity parameter, and
  compares two points of it; the functions return points of the relation by
  C43 and C44. The other formulas are compared in logarithms as well; the
  refutations give explicit arguments.  Refutations with a witness:
  `C78_longer_waves_larger_stones_refuted`,
  `C78_gentler_slope_smaller_stones_refuted`, `C78_rear_lower_crest_refuted`,
  `C78_jumelet_refuted`.
* **C79 Larger waves load walls and caissons more, and make a caisson less
  safe** (proved; `Props/ResponseGoda.v`, `Props/ResponseWall.v`).  The
  existing scalar models. `Proofs/Loads.v` has a small calculus of `higher`
  (sums and products), the monotonicity of the three coefficients of Goda in
  the wave number (the ratio x / sinh x by the mean value theorem), of the
  product of the second one with the wave height, of the force and moment of a
  triangle cut off at the crest, and of the heel pressure (a bound by its
  tangents). The wave number falls with the period because the routine solves
  the dispersion relation. Crest walls use the formulas of C37 and the
  monotone run-up of C20.  Refutations with a witness:
  `C79_wall_armour_refuted`, `C79_wall_oblique_refuted`.
* **C80 Larger waves run up higher, cross the crest faster and are transmitted
  more, and where they are not** (proved; `Props/ResponseRunup.v`,
  `Props/ResponseTransmission.v`).  The existing scalar models. Wave height
  times adjusted roughness times the maximum run-up is a polynomial of the
  fourth root of the wave height on each range of the roughness factor and is
  compared piece by piece (`Proofs/Response.v`); the damping term of
  d'Angremond et al. falls more slowly than the power of the crest width from
  an Iribarren number of 2 (mean value theorem); the set-up is compared in
  logarithms, with the inequality of weighted means for its turning point.
  `Props/ResponseRunup.v`, `Props/ResponseTransmission.v`; the refutations
  give explicit arguments. Not covered: run-up on composite slopes (iteration)
  and the wave height in Briganti et al.  Refutations with a witness:
  `C80_taw_berm_refuted`, `C80_taw_period_refuted`,
  `C80_dangremond_height_refuted`.
* **C81 The width that makes a Goda caisson safe, and the caissons no width
  makes safe** (proved; `Props/CaissonWidth.v`).  Model `Goda1985` with its
  defaults. `Spec/CaissonWidth.v` states the two widths from the balance of
  forces and moments; `Props/CaissonWidth.v` takes the loads of C79 as
  functions of the width and solves for it. The bounds on the uplift pressure
  follow from the ranges of the coefficients alpha1 and alpha3.
* **C82 A call binds its arguments as Python does, and what is left out takes
  the documented value, with one exception** (proved; `Props/Signatures.v`,
  `Props/SignaturesDocs.v`).  `Model/Calling.v` models the binding of
  arguments; `Model/Signatures.v` transcribes all signatures (parameters in
  order, with defaults), `Spec/Documented.v` the values after 'by default' in
  the docstrings. `Spec/Calling.v` states what a call means parameter by
  parameter. The general facts are proved by induction (`Proofs/Calling.v`);
  comparisons between the two tables by computation. `Spec/DocumentedNames.v`
  lists the parameter names in the order of the docstrings, compared with the
  signatures in `Props/SignaturesDocs.v`. Decimal floats are the decimal
  numbers written. Not covered: repeated keywords (a syntax error in Python),
  unpacking of arguments, parameters documented without a value.  Refutations
  with a witness: `C82_left_out_refuted`, `C82_documented_names_refuted`.
* **C83 A missing number does not turn into a number, with four exceptions**
  (proved; `Props/Missing.v`, `Props/MissingGoda.v`,
  `Props/MissingOvertopping.v`, `Props/MissingRefuted.v`,
  `Props/MissingRock.v`, `Props/MissingSearches.v`, `Props/MissingTAW.v`).
  `Spec/Missing.v` says when an answer is no number (NaN; for a call: NaN if
  it returns). The theorems are stated per file for the arguments listed in
  `missing [...]`; the calls are executed symbolically with NaN in each place
  in turn (tactic `nanrun` in `Proofs/Missing.v`), the loops by induction.
  Left out: arguments that are only checked, arguments that select a branch or
  have a default meaning when missing (a stone size given as mass instead of
  diameter, influence factors that are then calculated), coefficients used as
  exponents (NaN to the power 0 and 1 to the power NaN are 1), and the search
  of Takahashi et al. The wave length of caissons is that of an arbitrary
  dispersion solver that returns NaN for NaN.  Refutations with a witness:
  `C83_goda1967_refuted`, `C83_xbloc_refuted`, `C83_eurotop2007_refuted`,
  `C83_eurotop2018_refuted`.
* **C84 Positive arguments give a positive number, with the exceptions
  listed** (proved; `Props/NumbersExact.v`, `Props/NumbersHydraulic.v`,
  `Props/NumbersStability.v`).  Spec/Numbers.v says what it means that a call
  returns a number with a property. The theorems of Props/NumbersHydraulic.v
  and Props/NumbersStability.v (one per module) follow the numbers through
  each function; the hypotheses list the arguments that are positive, all
  others are arbitrary reals. Props/NumbersExact.v has the functions whose
  sign needs an argument of its own (run-up curve, quadratic of Kramer,
  correction for the number of waves, sinh) and the exact conditions for the
  exceptions, with witnesses in C84_positive_refuted. Functions that need more
  than signs (EurOtop and TAW overtopping, Jumelet, rear-side damage, the
  iterative searches) are not in this property; where they have no number is
  stated in C22, C46, C49, C50, C52 and C53.  Refutations with a witness:
  `C84_positive_refuted`.
* **C85 What each formula answers in still water** (proved;
  `Props/StillWater.v`, `Props/StillWaterExact.v`).  Spec/StillWater.v says
  what it means that a call returns a given number. Props/StillWater.v
  (generated per module from the signatures, one conjunct per function)
  evaluates each function at wave height 0 by the rules of Lib/Num.v for 0/0,
  x/0, powers of 0 and comparisons with NaN; Props/StillWaterExact.v has the
  functions whose answer depends on the structure and the refutation with
  witnesses. Functions not listed (TAW, EurOtop 2018, Goda and the searches)
  are not part of this property. The zero is the numpy zero: a Python float
  0.0 as divisor raises ZeroDivisionError, which is outside the model.
  Refutations with a witness: `C85_no_load_refuted`.
* **C86 What the limit and the tolerance of an iterative search mean, and when
  its warning is a false alarm** (proved; `Props/Searching.v`).
  Spec/Searching.v describes a search from outside, by calls with different
  limits and a negative tolerance (which never counts as settled).
  Proofs/Searching.v proves the law once for a general loop with a state;
  Props/Searching.v shows that each loop of the models is an instance. The
  false alarm uses the convergence of C49.  Refutations with a witness:
  `C86_warning_means_not_settled_refuted`.
* **C87 Where a small change of an argument changes the answer little, and
  where the answer makes a step** (proved; `Props/Steps.v`).  Spec/Steps.v
  defines steady and step with epsilon and delta, on functions from the reals
  to answers. Proofs/Steps.v reduces both to the continuity of the real
  expressions on either side (Coq's continuity_pt); Props/Steps.v applies that
  to the values proved in C09, C10, C11, C14, C35, C43 and C44. A theorem
  shows that the two notions exclude one another.
* **C88 What the answers come to for ever higher crests, longer storms and
  longer waves** (proved; `Props/FarOut.v`).  Spec/FarOut.v defines coming to
  a number and passing all bounds with epsilon and a point beyond which.
  Proofs/FarOut.v shows that answers below an exponential with a linearly
  growing exponent come to 0; Props/FarOut.v applies that to the values proved
  in C11, C16, C18, C19, C25, C26, C32, C43, C44 and to the De Ridder
  formulas. The EurOtop 2018 and caisson exponents are powers 1.3, bounded
  below by their base.

## 6. Trusted base

* The Coq kernel (and `coqchk`).
* Axioms of the standard library, as `Print Assumptions` lists for each theorem
  (`Props/Assumptions.v`): `ClassicalDedekindReals.sig_forall_dec`,
  `ClassicalDedekindReals.sig_not_dec` and
  `FunctionalExtensionality.functional_extensionality_dep` (all three from the
  construction of the real numbers), and for some theorems
  `Classical_Prop.classic` (used by parts of the standard library's analysis).
  No other library is used and no axiom is added.  `Classical_Prop.classic` is not used for C01, C05, C06, C07, C08, C09, C10,
  C31, C39, C40, C56; `sig_not_dec` is not used for C01, C05, C06, C08, C10,
  C39, C40, C56; `functional_extensionality_dep` is not used for C56; the
  other properties use all four.
* `coqchk -o` additionally lists the constants that the standard library seals
  behind a module signature (`Rdefinitions.RbaseSymbolsImpl`, `RinvImpl`,
  `ssrunder.Under_rel`); they have definitions and are not assumed.
* That the Gallina definitions describe the python code, under the
  simplifications above.
* For statements with `disper`: that the external routine satisfies the stated
  assumption.
