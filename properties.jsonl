{"id": "C01", "title": "Validity-range check flags exactly the out-of-range values", "statement": "check_variable_validity_range never raises; it returns one boolean per supplied value, in order; an entry is False exactly when that value is a number below the minimum or above the maximum; exactly one warning, naming the variable, the formula, the value and the range, is issued per False entry and none otherwise; a missing (NaN) value is never flagged.", "quantifier": "every list of values of any length, including NaN and infinities, and every pair of bounds", "why_tests_cant": "Lists of unbounded length and every combination of NaN, infinite and finite values.", "anchors": ["deltares_coastal_structures_toolbox/functions/core_utility.py::check_variable_validity_range"]}
{"id": "C02", "title": "Wave steepness and Iribarren number are Froude-scale invariant", "statement": "For positive height, period and slope the steepness and the Iribarren number are finite and positive, equal the textbook definitions s=2*pi*H/(g*T^2), ksi=tan(alpha)/sqrt(s), and do not change when the wave height is multiplied by lambda and the period by sqrt(lambda).", "quantifier": "all positive H, T, cot_alpha, g and all positive scale factors lambda", "why_tests_cant": "The domain is a continuum of several real arguments; a finite set of samples cannot exclude a branch or argument combination where the identity breaks.", "anchors": ["deltares_coastal_structures_toolbox/functions/core_physics.py::calculate_wave_steepness_s", "deltares_coastal_structures_toolbox/functions/core_physics.py::calculate_Iribarren_number_ksi"]}
{"id": "C03", "title": "Stone mass and nominal diameter convert back and forth without loss", "statement": "calculate_M50_from_Dn50 and calculate_Dn50_from_M50 are mutually inverse on positive values for every positive density, and both are strictly increasing.", "quantifier": "all positive Dn50, M50 and rock densities", "why_tests_cant": "The domain is a continuum of several real arguments; a finite set of samples cannot exclude a branch or argument combination where the identity breaks.", "anchors": ["deltares_coastal_structures_toolbox/functions/core_physics.py::calculate_M50_from_Dn50", "deltares_coastal_structures_toolbox/functions/core_physics.py::calculate_Dn50_from_M50"]}
{"id": "C04", "title": "Dn50-or-M50 argument resolution", "statement": "check_usage_Dn50_or_M50 raises ValueError exactly when both sizes are missing; returns Dn50 unchanged when it is given (whatever M50 is); otherwise returns the diameter whose mass is M50, with density 2650 and one warning exactly when the density is missing.", "quantifier": "every combination of present/missing Dn50, M50 and density, and all values", "why_tests_cant": "The decision table ranges over all values of three optional real arguments.", "anchors": ["deltares_coastal_structures_toolbox/functions/core_physics.py::check_usage_Dn50_or_M50"]}
{"id": "C05", "title": "Damage numbers S and Nod convert back and forth", "statement": "calculate_S_from_Nod and calculate_Nod_from_S are mutually inverse for every gradation factor G>0 and porosity nv other than 1.", "quantifier": "all real S, Nod, G>0, nv<>1", "why_tests_cant": "The domain is a continuum of several real arguments; a finite set of samples cannot exclude a branch or argument combination where the identity breaks.", "anchors": ["deltares_coastal_structures_toolbox/functions/core_physics.py::calculate_S_from_Nod", "deltares_coastal_structures_toolbox/functions/core_physics.py::calculate_Nod_from_S"]}
{"id": "C06", "title": "Stability-number solver completes the missing quantity", "statement": "check_usage_stabilitynumber returns normally exactly when precisely one of Hs, Dn, Delta, Ns is missing; the name it returns is that of the missing quantity and its value makes Hs = Ns*Delta*Dn hold; in every other case it raises ValueError.", "quantifier": "all 16 presence patterns and all non-zero real values", "why_tests_cant": "All values of three real arguments for each pattern.", "anchors": ["deltares_coastal_structures_toolbox/functions/core_physics.py::check_usage_stabilitynumber"]}
{"id": "C07", "title": "Local wavelength: which argument shapes work, and what they return", "statement": "Whenever calculate_local_wavelength returns, each wavelength L satisfies L*k=2*pi for the wave number k obtained from the dispersion routine for the matching period and depth, in order and with the length of the depth array; a depth array of one element, or an integer period together with a depth array, or arrays of different length never return a value.", "quantifier": "every dispersion routine, every scalar/array argument shape, arrays of any length", "why_tests_cant": "Arrays of unbounded length and an arbitrary external solver.", "anchors": ["deltares_coastal_structures_toolbox/functions/core_physics.py::calculate_local_wavelength"]}
{"id": "C08", "title": "Oblique-wave factors of TAW/EurOtop are bounded, even and decreasing in obliqueness", "statement": "The TAW 2002 oblique-wave factors for run-up and overtopping are independent of the sign of the angle, equal 1 at normal incidence, decrease with obliqueness, stay constant beyond 80 degrees, and lie in [0.824,1] and [0.736,1] respectively.", "quantifier": "all real angles", "why_tests_cant": "The domain is a continuum of several real arguments; a finite set of samples cannot exclude a branch or argument combination where the identity breaks.", "anchors": ["deltares_coastal_structures_toolbox/functions/hydraulic/wave_runup/taw2002.py::calculate_influence_oblique_waves_gamma_beta", "deltares_coastal_structures_toolbox/functions/hydraulic/wave_overtopping/taw2002.py::calculate_influence_oblique_waves_gamma_beta"]}
{"id": "C09", "title": "Berm influence factor always lies in [0.6, 1]", "statement": "Whenever the TAW 2002 berm factor evaluates to a number it lies between 0.6 and 1, whatever the berm width, depth, wave height and run-up; with a finite positive berm length it is a number; with zero berm width it is 1.", "quantifier": "all inputs, including degenerate ones (zero lengths, negative run-up)", "why_tests_cant": "The domain is a continuum of several real arguments; a finite set of samples cannot exclude a branch or argument combination where the identity breaks.", "anchors": ["deltares_coastal_structures_toolbox/functions/hydraulic/wave_runup/taw2002.py::calculate_influence_berm_gamma_b"]}
{"id": "C10", "title": "Adjusted roughness factor: where it is between gamma_f and 1 and where it is not", "statement": "The TAW 2002 adjusted roughness factor equals gamma_f outside 1.8<=gamma_b*ksi<=10, is continuous in ksi at the lower limit only when gamma_b=1, lies in [gamma_f,1] when 1.8<=ksi<=10, and exceeds 1 for some inputs with gamma_b<1.", "quantifier": "all positive ksi, gamma_f in (0,1], gamma_b in [0.6,1]", "why_tests_cant": "The domain is a continuum of several real arguments; a finite set of samples cannot exclude a branch or argument combination where the identity breaks.", "anchors": ["deltares_coastal_structures_toolbox/functions/hydraulic/wave_runup/taw2002.py::calculate_adjusted_influence_roughness_gamma_f"]}
{"id": "C11", "title": "TAW run-up height is the smaller of the slope and maximum formulas, and the flag says which", "statement": "For a simple slope with given influence factors the 2% run-up equals Hm0 times the minimum of the two published expressions, max_reached is True exactly when the maximum expression governs, the result never exceeds the maximum, and it is Froude-scale invariant.", "quantifier": "all real-valued positive inputs (wave height, period, geometry, densities, damage) in the stated domain", "why_tests_cant": "The domain is a continuum of several real arguments; a finite set of samples cannot exclude a branch or argument combination where the identity breaks.", "anchors": ["deltares_coastal_structures_toolbox/functions/hydraulic/wave_runup/taw2002.py::calculate_wave_runup_height_z2p", "deltares_coastal_structures_toolbox/functions/hydraulic/wave_runup/taw2002.py::calculate_dimensionless_wave_runup_height_z2p"]}
{"id": "C12", "title": "TAW run-up iteration terminates and reports a fixed point up to the tolerance", "statement": "For a composite slope the run-up iteration evaluates the run-up formula at most max_iter+1 times, never recurses more than one level, and when it stops before the cap the returned height differs from the height for which slope and berm factor were evaluated by at most the tolerance. For a berm between still water and 1.5 Hm0 below it, slopes within a factor 9 of each other, ksi of at least 0.4 and a roughness factor that needs no adjustment it stops within 31 evaluations near the only fixed point; for some other inputs within the documented ranges it never settles and the result depends on whether max_iter is even or odd.", "quantifier": "all inputs, all max_iter and tolerances, any number of iterations", "why_tests_cant": "Termination and the exit condition quantify over every iteration history.", "anchors": ["deltares_coastal_structures_toolbox/functions/hydraulic/wave_runup/taw2002.py::iteration_procedure_z2p"]}
{"id": "C13", "title": "TAW overtopping discharge and crest freeboard are inverse at standard gravity, and only there", "statement": "With g=9.81, feeding the discharge computed for a freeboard Rc back into the freeboard function with the same inputs returns exactly Rc and the same max_reached flag, in both regimes; for other values of g passed to both functions the round trip fails for some inputs.", "quantifier": "all real-valued positive inputs (wave height, period, geometry, densities, damage) in the stated domain", "why_tests_cant": "The domain is a continuum of several real arguments; a finite set of samples cannot exclude a branch or argument combination where the identity breaks.", "anchors": ["deltares_coastal_structures_toolbox/functions/hydraulic/wave_overtopping/taw2002.py::calculate_overtopping_discharge_q", "deltares_coastal_structures_toolbox/functions/hydraulic/wave_overtopping/taw2002.py::calculate_crest_freeboard_Rc"]}
{"id": "C14", "title": "TAW overtopping discharge responds monotonically", "statement": "The discharge is positive, strictly decreases with crest freeboard, does not increase with the number of standard deviations, does not decrease with the factors for oblique waves and a wall, nor with the roughness factor up to ksi=10 or the berm factor as long as the roughness needs no adjustment, and scales with lambda^1.5 under Froude scaling of all inputs; beyond, a larger roughness or berm factor gives a smaller discharge for some inputs.", "quantifier": "all real-valued positive inputs (wave height, period, geometry, densities, damage) in the stated domain", "why_tests_cant": "The domain is a continuum of several real arguments; a finite set of samples cannot exclude a branch or argument combination where the identity breaks.", "anchors": ["deltares_coastal_structures_toolbox/functions/hydraulic/wave_overtopping/taw2002.py::calculate_overtopping_discharge_q"]}
{"id": "C15", "title": "TAW overtopping: non-zero sigma without best fit never yields a result", "statement": "Calling the TAW 2002 discharge or freeboard function with a non-zero standard-deviation offset while use_best_fit is False never returns a value: it warns and then fails, with an unbound-variable error wherever the same call with sigma zero succeeds and with the error of that call otherwise.", "quantifier": "all other inputs", "why_tests_cant": "The claim is about every input combination.", "anchors": ["deltares_coastal_structures_toolbox/functions/hydraulic/wave_overtopping/taw2002.py::calculate_dimensionless_overtopping_discharge_q", "deltares_coastal_structures_toolbox/functions/hydraulic/wave_overtopping/taw2002.py::calculate_dimensionless_crest_freeboard"]}
{"id": "C16", "title": "TAW simple slope without a berm factor: run-up fails, overtopping works", "statement": "The TAW 2002 run-up function called with a simple slope (cot_alpha only) and no berm factor raises ValueError for every input, even with the default zero berm width; the overtopping functions called in the same way take the berm factor to be 1.", "quantifier": "all other inputs", "why_tests_cant": "The claim is about every input combination.", "anchors": ["deltares_coastal_structures_toolbox/functions/hydraulic/wave_runup/taw2002.py::calculate_berm_length", "deltares_coastal_structures_toolbox/functions/hydraulic/wave_runup/taw2002.py::calculate_dimensionless_wave_runup_height_z2p", "deltares_coastal_structures_toolbox/functions/hydraulic/wave_overtopping/taw2002.py::calculate_dimensionless_overtopping_discharge_q"]}
{"id": "C17", "title": "EurOtop 2018 run-up ignores a supplied oblique-wave factor", "statement": "The EurOtop 2018 run-up function does not depend on the gamma_beta argument at all; when gamma_beta is supplied but beta is not, it raises ValueError.", "quantifier": "all inputs", "why_tests_cant": "Independence of an argument is a statement about all pairs of inputs.", "anchors": ["deltares_coastal_structures_toolbox/functions/hydraulic/wave_runup/eurotop2018.py::calculate_wave_runup_height_z2p"]}
{"id": "C18", "title": "EurOtop 2018 discharge and freeboard: where they are inverse", "statement": "The rubble-mound pair is an exact inverse for every non-negative freeboard; the dike pair is an exact inverse when the roughness needs no adjustment, and for rough slopes with 1.8<=gamma_b*ksi in the maximum regime it is not.", "quantifier": "all real-valued positive inputs (wave height, period, geometry, densities, damage) in the stated domain", "why_tests_cant": "The domain is a continuum of several real arguments; a finite set of samples cannot exclude a branch or argument combination where the identity breaks.", "anchors": ["deltares_coastal_structures_toolbox/functions/hydraulic/wave_overtopping/eurotop2018.py::calculate_overtopping_discharge_q", "deltares_coastal_structures_toolbox/functions/hydraulic/wave_overtopping/eurotop2018.py::calculate_crest_freeboard_Rc", "deltares_coastal_structures_toolbox/functions/hydraulic/wave_overtopping/eurotop2018.py::calculate_overtopping_discharge_q_rubble_mound", "deltares_coastal_structures_toolbox/functions/hydraulic/wave_overtopping/eurotop2018.py::calculate_crest_freeboard_Rc_rubble_mound"]}
{"id": "C19", "title": "EurOtop 2007 rubble-mound discharge and freeboard are inverse", "statement": "For both the design and the mean-value approach the freeboard function inverts the discharge function exactly at g=9.81; discharge is positive and strictly decreasing in freeboard.", "quantifier": "all real-valued positive inputs (wave height, period, geometry, densities, damage) in the stated domain", "why_tests_cant": "The domain is a continuum of several real arguments; a finite set of samples cannot exclude a branch or argument combination where the identity breaks.", "anchors": ["deltares_coastal_structures_toolbox/functions/hydraulic/wave_overtopping/eurotop2007.py"]}
{"id": "C20", "title": "Van Gent 2001 run-up is smooth at the regime boundary, increasing, bounded and ordered by exceedance", "statement": "The run-up level is continuous with matching slope where the two branches meet, strictly increasing in ksi, wave height and roughness factor, stays below gamma*c1*Hs, scales with lengths under Froude scaling, and the 1% level exceeds the 2% level, which exceeds the 10% level, for the same waves; the 2% function fails unless exactly one of its two wave heights is given.", "quantifier": "all real-valued positive inputs (wave height, period, geometry, densities, damage) in the stated domain", "why_tests_cant": "The domain is a continuum of several real arguments; a finite set of samples cannot exclude a branch or argument combination where the identity breaks.", "anchors": ["deltares_coastal_structures_toolbox/functions/hydraulic/wave_runup/vangent2001.py"]}
{"id": "C21", "title": "Van Gent 2001 run-up inversion is exact at its fixed points", "statement": "A wave height is reproduced by the inversion routine for a run-up level exactly when that run-up level is the one the forward formula gives for that wave height, and repeating the inversion from any positive starting height converges to that height.", "quantifier": "all real-valued positive inputs (wave height, period, geometry, densities, damage) in the stated domain", "why_tests_cant": "The domain is a continuum of several real arguments; a finite set of samples cannot exclude a branch or argument combination where the identity breaks.", "anchors": ["deltares_coastal_structures_toolbox/functions/hydraulic/wave_runup/vangent2001.py"]}
{"id": "C22", "title": "Van Gent 2002 crest velocity and run-up level are inverse", "statement": "For run-up levels at or above the crest the velocity is a non-negative number and the inversion returns the original level; for levels below the crest the velocity is not a number.", "quantifier": "all real-valued positive inputs (wave height, period, geometry, densities, damage) in the stated domain", "why_tests_cant": "The domain is a continuum of several real arguments; a finite set of samples cannot exclude a branch or argument combination where the identity breaks.", "anchors": ["deltares_coastal_structures_toolbox/functions/hydraulic/wave_overtopping/vangent2002_velocity.py"]}
{"id": "C23", "title": "De Ridder 2024 discharge and freeboard are inverse at standard gravity", "statement": "For both published equations the freeboard function inverts the discharge function exactly at g=9.81; for the first equation this fails for other g because the argument is ignored.", "quantifier": "all real-valued positive inputs (wave height, period, geometry, densities, damage) in the stated domain", "why_tests_cant": "The domain is a continuum of several real arguments; a finite set of samples cannot exclude a branch or argument combination where the identity breaks.", "anchors": ["deltares_coastal_structures_toolbox/functions/hydraulic/wave_overtopping/deridder2024.py"]}
{"id": "C24", "title": "De Ridder 2026 discharge and freeboard are inverse; obliqueness factor is bounded", "statement": "For both published equations the freeboard function inverts the discharge function exactly for every g; the obliqueness factor is even in the angle, 1 at normal incidence and within [0.35,1].", "quantifier": "all real-valued positive inputs (wave height, period, geometry, densities, damage) in the stated domain", "why_tests_cant": "The domain is a continuum of several real arguments; a finite set of samples cannot exclude a branch or argument combination where the identity breaks.", "anchors": ["deltares_coastal_structures_toolbox/functions/hydraulic/wave_overtopping/deridder2026.py"]}
{"id": "C25", "title": "Van Gent 2021 caisson overtopping: inverse when swell height is given, no number when it is left at its default", "statement": "With a finite Hm0_swell the freeboard function inverts the discharge function exactly in every supported configuration; without crossing seas and with Hm0_swell left at its default the result is never a number; unsupported configurations raise ValueError.", "quantifier": "all configurations and all real inputs", "why_tests_cant": "The domain is a continuum of several real arguments; a finite set of samples cannot exclude a branch or argument combination where the identity breaks.", "anchors": ["deltares_coastal_structures_toolbox/functions/hydraulic/wave_overtopping/vangent2021_caisson.py"]}
{"id": "C26", "title": "Van Gent 2025 discharge and freeboard: where they are inverse", "statement": "Without design calculation the freeboard function inverts the discharge function exactly; with design calculation the round trip fails in the maximum regime; leaving gamma_v at its default never yields a number.", "quantifier": "all real-valued positive inputs (wave height, period, geometry, densities, damage) in the stated domain", "why_tests_cant": "The domain is a continuum of several real arguments; a finite set of samples cannot exclude a branch or argument combination where the identity breaks.", "anchors": ["deltares_coastal_structures_toolbox/functions/hydraulic/wave_overtopping/vangent2025.py"]}
{"id": "C27", "title": "Van Gent 2025 influence factors are continuous at their break points and bounded", "statement": "The roughness factor is continuous at steepness 0.012, the crest-wall factor is continuous at cot_alpha=4 and the obliqueness factor is even, 1 at normal incidence and within (0,1].", "quantifier": "all real-valued positive inputs (wave height, period, geometry, densities, damage) in the stated domain", "why_tests_cant": "The domain is a continuum of several real arguments; a finite set of samples cannot exclude a branch or argument combination where the identity breaks.", "anchors": ["deltares_coastal_structures_toolbox/functions/hydraulic/wave_overtopping/vangent2025.py"]}
{"id": "C28", "title": "Van Gent 2025 with wind: the discharge factor and the iteration for the freeboard", "statement": "With include_influence_wind the discharge is multiplied by a factor that exceeds 1 exactly when Rc > Ac. The freeboard for a given discharge, for every max_iter and tolerance, lies between the freeboard without wind and every freeboard that balances the discharge with wind; when the iteration contracts that balance has exactly one solution and the returned value misses it by at most k/(1-k) times the tolerance or k^max_iter times the initial distance. When the wind factor at the first iterate is negative the result is NaN. For Rc > Ac the freeboard computed from the discharge with wind is below Rc.", "quantifier": "all positive wave, slope and influence-factor values, all max_iter and tolerances; convergence under the stated contraction factor", "why_tests_cant": "The number of iterations, the tolerance and the fixed point range over all reals; tests only see single converged runs.", "anchors": ["deltares_coastal_structures_toolbox/functions/hydraulic/wave_overtopping/vangent2025.py"]}
{"id": "C29", "title": "D'Angremond transmission is clipped, decreasing in freeboard, and larger for impermeable structures", "statement": "Kt is always a number in [0.075,0.8] for positive wave height, width and Iribarren number; it does not increase with freeboard or crest width; the impermeable value is at least the permeable one; it is invariant under Froude scaling; the warning about Kt is issued exactly when the clipping limits changed the value.", "quantifier": "all real-valued positive inputs (wave height, period, geometry, densities, damage) in the stated domain", "why_tests_cant": "The domain is a continuum of several real arguments; a finite set of samples cannot exclude a branch or argument combination where the identity breaks.", "anchors": ["deltares_coastal_structures_toolbox/functions/hydraulic/wave_transmission/dangremond1996.py"]}
{"id": "C30", "title": "Briganti transmission stays in [0.05, 0.93] and joins D'Angremond for narrow crests", "statement": "Kt is a number in [0.05,0.93]; below B/Hsi=10 it equals D'Angremond's value; it does not increase with freeboard, nor with crest width on either side of B/Hsi=10, but it may jump up there; the array call is the scalar call elementwise and fails for empty arrays.", "quantifier": "all real-valued positive inputs (wave height, period, geometry, densities, damage) in the stated domain", "why_tests_cant": "The domain is a continuum of several real arguments; a finite set of samples cannot exclude a branch or argument combination where the identity breaks.", "anchors": ["deltares_coastal_structures_toolbox/functions/hydraulic/wave_transmission/briganti2003.py"]}
{"id": "C31", "title": "Goda 1967 transmission: scalar range, non-monotone boundary, and truncation of arrays", "statement": "The scalar coefficient lies in [0,1]; it is not monotone in freeboard at the upper limit and falls below the stated minimum 0.03; an array call whose first element is fully submerged truncates every later coefficient to an integer, otherwise it equals the scalar function elementwise.", "quantifier": "all real inputs and arrays of any length", "why_tests_cant": "Array length is unbounded and the defect depends on the first element only.", "anchors": ["deltares_coastal_structures_toolbox/functions/hydraulic/wave_transmission/goda1967_caisson.py"]}
{"id": "C32", "title": "Van Gent 2023 transmission lies strictly between 0 and 1 and decreases with freeboard", "statement": "For each of the five structure types Kt lies strictly between the two asymptotes of the published formula, hence within (0,1), and strictly decreases with freeboard; unknown types raise ValueError; no validity warning is ever issued.", "quantifier": "all real-valued positive inputs (wave height, period, geometry, densities, damage) in the stated domain, all structure-type strings", "why_tests_cant": "The domain is a continuum of several real arguments; a finite set of samples cannot exclude a branch or argument combination where the identity breaks.", "anchors": ["deltares_coastal_structures_toolbox/functions/hydraulic/wave_transmission/vangent2023.py"]}
{"id": "C33", "title": "Goda pressures are non-negative and ordered", "statement": "For positive geometry (wall base not below the bed in front of it, rubble crest depth at most the depth 5 Hs seaward) and |beta|<=90 degrees pressures and coefficients are those of the published formulas: 0.6<alpha1<1.1, 0<=alpha2<=2d/HD, 0<alpha3<=1, 0<p3<=p1, 0<p2<p1, 0<pu<=p3, 0<=p4<=p1, p4 lies on the line from p1 to the run-up level and is 0 exactly when the run-up stays at or below the top of the wall. Angles up to 15 degrees act as 0 and the sign of the angle is irrelevant; a missing angle raises UnboundLocalError.", "quantifier": "all real-valued positive inputs (wave height, period, geometry, densities, damage) in the stated domain, for every wave-number oracle returning positive wave numbers", "why_tests_cant": "The domain is a continuum of several real arguments; a finite set of samples cannot exclude a branch or argument combination where the identity breaks.", "anchors": ["deltares_coastal_structures_toolbox/functions/structural/forces_caisson/goda1985.py"]}
{"id": "C34", "title": "Goda force and moment are the integrals of the pressure diagram", "statement": "The horizontal force and overturning moment equal the integrals over the wall height of the piecewise-linear pressure diagram through p3 (base), p1 (still water) and p4 (top) and of that diagram times the lever arm; the uplift force and moment are those of the triangular diagram over the caisson width.", "quantifier": "all pressures and positive dimensions with the crest at or above still water", "why_tests_cant": "The domain is a continuum of several real arguments; a finite set of samples cannot exclude a branch or argument combination where the identity breaks.", "anchors": ["deltares_coastal_structures_toolbox/functions/structural/forces_caisson/goda1985.py"]}
{"id": "C35", "title": "Goda heel bearing pressure balances the vertical load", "statement": "Whenever the net weight is positive and acts at a distance te from the heel with 0<te<=2B/3, the bearing pressure is the heel value of a non-negative (truncated) linear distribution over the base whose resultant equals the net weight and whose moment equals the net moment; outside these bounds the returned pressure is negative. The safety factors are at least 1 exactly when friction carries the force and when the net moment is not negative. The reactions use the forces of the pressure function, the weight of the caisson below and above water and the given lever arm.", "quantifier": "all loads, widths and eccentricities", "why_tests_cant": "The domain is a continuum of several real arguments; a finite set of samples cannot exclude a branch or argument combination where the identity breaks.", "anchors": ["deltares_coastal_structures_toolbox/functions/structural/forces_caisson/goda1985.py"]}
{"id": "C36", "title": "Goda impulsive-breaking check", "statement": "The check reports impulsive breaking, with exactly one warning naming the condition, exactly when one of the two published sets of conditions holds; a berm of exactly 2% of the wave length meets neither; without the offshore steepness (the default) only the second set is looked at; the flag returned with the forces is that of the check at the unsigned angle and the local wave length.", "quantifier": "all real inputs with positive wave length, wave height and depth", "why_tests_cant": "The domain is a continuum of several real arguments; a finite set of samples cannot exclude a branch or argument combination where the identity breaks.", "anchors": ["deltares_coastal_structures_toolbox/functions/structural/forces_caisson/goda1985.py"]}
{"id": "C37", "title": "Crest-wall forces are non-negative for perpendicular waves, and not for oblique waves", "statement": "The perpendicular horizontal force is the published load where the run-up exceeds the armour crest and 0 exactly otherwise; the vertical force likewise with three quarters of the armour crest, provided the wall base lies below the armour crest: above it the force is positive exactly when the run-up is low. For oblique waves the force is the load of the reduced run-up, which is negative for some armour crests below the run-up level at every angle in (0,90], and is no number when run-up equals the armour crest. The oblique factor is 1 for perpendicular waves, at most 1 and decreasing with the angle. The extreme vertical force is below the 2% force for steepness above 0.05875 and negative above 0.09. Forces scale with the square of the length scale under Froude scaling.", "quantifier": "all real-valued positive inputs (wave height, period, geometry, densities, damage) in the stated domain", "why_tests_cant": "The domain is a continuum of several real arguments; a finite set of samples cannot exclude a branch or argument combination where the identity breaks.", "anchors": ["deltares_coastal_structures_toolbox/functions/structural/forces_crestwall/vangentvanderwerf2019.py"]}
{"id": "C38", "title": "Hudson unit mass and wave height are inverse for every unit type", "statement": "For rock, double-layer cubes, tetrapods, cubipods, accropodes, accropodes II and core-loc the design wave height function inverts the unit-mass function exactly, and the mass grows with the cube of the wave height.", "quantifier": "all real-valued positive inputs (wave height, period, geometry, densities, damage) in the stated domain", "why_tests_cant": "The domain is a continuum of several real arguments; a finite set of samples cannot exclude a branch or argument combination where the identity breaks.", "anchors": ["deltares_coastal_structures_toolbox/functions/structural/stability_rock_armour/hudson1959.py", "deltares_coastal_structures_toolbox/functions/structural/stability_concrete_armour"]}
{"id": "C39", "title": "Hudson damage table lookup", "statement": "The damage factor is non-decreasing in the damage percentage, between 1 and 1.54 (rough) or 1.56 (smooth) for every percentage below 100; at exactly 100 percent, which the table lists, the lookup fails with an index error; at a tabulated percentage it returns the factor of the next table entry.", "quantifier": "all real percentages", "why_tests_cant": "The domain is a continuum of several real arguments; a finite set of samples cannot exclude a branch or argument combination where the identity breaks.", "anchors": ["deltares_coastal_structures_toolbox/functions/structural/stability_rock_armour/hudson1959.py::lookup_table_damage_factors"]}
{"id": "C40", "title": "Stability coefficient KD of single-layer units decreases with seabed slope and stays within the table", "statement": "KD for accropode, accropode II and core-loc is non-increasing in the seabed slope, a multiple of 0.1 and within the table limits for every slope.", "quantifier": "all real slopes", "why_tests_cant": "The domain is a continuum of several real arguments; a finite set of samples cannot exclude a branch or argument combination where the identity breaks.", "anchors": ["deltares_coastal_structures_toolbox/functions/structural/stability_concrete_armour/accropode_hudson1959.py", "deltares_coastal_structures_toolbox/functions/structural/stability_concrete_armour/accropode2_hudson1959.py", "deltares_coastal_structures_toolbox/functions/structural/stability_concrete_armour/core_loc_hudson1959.py"]}
{"id": "C41", "title": "Cube armour formulas are mutually inverse", "statement": "The Van der Meer 1988 double-layer cube functions for damage, diameter and wave height, and the single-layer cube functions for mass and wave height, invert one another exactly; start of damage needs a larger cube than failure.", "quantifier": "all real-valued positive inputs (wave height, period, geometry, densities, damage) in the stated domain", "why_tests_cant": "The domain is a continuum of several real arguments; a finite set of samples cannot exclude a branch or argument combination where the identity breaks.", "anchors": ["deltares_coastal_structures_toolbox/functions/structural/stability_concrete_armour/cubes_double_layer_vandermeer1988.py", "deltares_coastal_structures_toolbox/functions/structural/stability_concrete_armour/cubes_single_layer_vangent2002.py"]}
{"id": "C42", "title": "Xbloc and XblocPlus sizing functions are mutually inverse, and correction factors never reduce the unit", "statement": "Unit volume, mass and wave height functions invert one another exactly for every correction factor; every stepwise correction factor is at least 1 and monotone in its argument, except the Xbloc structure-slope factor, which is not monotone.", "quantifier": "all real-valued positive inputs (wave height, period, geometry, densities, damage) in the stated domain", "why_tests_cant": "The domain is a continuum of several real arguments; a finite set of samples cannot exclude a branch or argument combination where the identity breaks.", "anchors": ["deltares_coastal_structures_toolbox/functions/structural/stability_concrete_armour/xbloc.py", "deltares_coastal_structures_toolbox/functions/structural/stability_concrete_armour/xblocplus.py"]}
{"id": "C43", "title": "Van der Meer 1988 rock formulas agree at the regime boundary and invert one another", "statement": "At the critical Iribarren number the plunging and surging damage are equal; the damage is strictly increasing in wave height and non-decreasing in the number of waves, and the wave-height and diameter functions return exactly the inputs that produced the damage; with a non-standard g the wave-height function does not.", "quantifier": "all real-valued positive inputs (wave height, period, geometry, densities, damage) in the stated domain", "why_tests_cant": "The domain is a continuum of several real arguments; a finite set of samples cannot exclude a branch or argument combination where the identity breaks.", "anchors": ["deltares_coastal_structures_toolbox/functions/structural/stability_rock_armour/vandermeer1988.py"]}
{"id": "C44", "title": "Modified and 2021 Van der Meer formulas agree at the regime boundary and invert one another", "statement": "The same holds for the modified formula (with the period Tm-1,0 and the ratio H2%/Hs) and for the 2021 rewrite; the 2021 functions equal the modified ones with H2%=Hs.", "quantifier": "all real-valued positive inputs (wave height, period, geometry, densities, damage) in the stated domain", "why_tests_cant": "The domain is a continuum of several real arguments; a finite set of samples cannot exclude a branch or argument combination where the identity breaks.", "anchors": ["deltares_coastal_structures_toolbox/functions/structural/stability_rock_armour/vandermeer1988_modified.py", "deltares_coastal_structures_toolbox/functions/structural/stability_rock_armour/vandermeer2021.py"]}
{"id": "C45", "title": "Etemad-Shahidi 2020 rock formulas: inversion and iteration", "statement": "The wave height computed from the damage of a wave height is that wave height, although the damage jumps at ksi=1.8; the diameter iteration converges for every positive input, its result has a residual bounded by the tolerance, and its limit is the unique diameter with the prescribed damage; with a water density other than 1025 passed to the damage function the round trip fails.", "quantifier": "all real-valued positive inputs (wave height, period, geometry, densities, damage) in the stated domain and every number of iterations", "why_tests_cant": "Convergence is a statement about unbounded iteration histories on a continuum.", "anchors": ["deltares_coastal_structures_toolbox/functions/structural/stability_rock_armour/etemadshahidi2020.py"]}
{"id": "C46", "title": "Jumelet 2024 rock formulas: inversion, plunging fraction, whole number of waves", "statement": "Damage and diameter functions are mutually inverse for the standard water density; the fraction of plunging waves has a maximum slightly above one; the results depend on the number of waves only through a whole number nearest to fraction times number; where fraction times number of waves is below -1/2 the results are NaN; a wave height that no longer changes with the iteration cap reproduces the prescribed damage exactly unless a wave height within the tolerance has another number of plunging waves. With the default start the wave-height search returns NaN on every slope steeper than 1 in 3.3 (250 waves or more) whatever the other arguments, also where a wave height that satisfies the formula exists and a steeper start finds it; from 1 in 3.5 to 1 in 30 its first pass gives a wave height.", "quantifier": "all real-valued positive inputs (wave height, period, geometry, densities, damage) in the stated domain", "why_tests_cant": "The domain is a continuum of several real arguments; a finite set of samples cannot exclude a branch or argument combination where the identity breaks.", "anchors": ["deltares_coastal_structures_toolbox/functions/structural/stability_rock_armour/jumelet2024.py"]}
{"id": "C47", "title": "Kramer-Burcharth low-crested solver: residual and silent non-convergence", "statement": "When the diameter or freeboard iteration stops by its tolerance the defining equation is satisfied up to an explicit multiple of that tolerance; for every structure in the published range of relative crest heights with stones up to 1000 m the default settings give the exact diameter within 1e-5 m and freeboard within 5e-5 m; for some inputs the iteration never converges and a value that does not satisfy the equation is returned without warning.", "quantifier": "all real-valued positive inputs (wave height, period, geometry, densities, damage) in the stated domain, every tolerance and iteration cap", "why_tests_cant": "Quantifies over iteration histories.", "anchors": ["deltares_coastal_structures_toolbox/functions/structural/stability_rock_armour/kramerburcharth2004_lowcrested.py"]}
{"id": "C48", "title": "Scaravaglione 2025 rock formulas are mutually inverse", "statement": "The damage, diameter and wave-height functions invert one another exactly at standard gravity.", "quantifier": "all real-valued positive inputs (wave height, period, geometry, densities, damage) in the stated domain", "why_tests_cant": "The domain is a continuum of several real arguments; a finite set of samples cannot exclude a branch or argument combination where the identity breaks.", "anchors": ["deltares_coastal_structures_toolbox/functions/structural/stability_rock_armour/scaravaglione2025.py"]}
{"id": "C49", "title": "Van Gent 2007 rear-side formulas: the diameter is not the exact inverse of the damage", "statement": "Feeding the diameter computed for a damage level back into the damage function always returns the damage times the same constant, which lies strictly between 1.01 and 1.02; damage depends on the square of the distance between run-up and crest, so run-up below the crest also gives positive damage. For every damage there is exactly one wave height with run-up above the crest; the wave-height search returns it within twice its tolerance (for tolerances up to Rc/(10.2*gamma)) unless it warns that the iteration limit was reached, and with enough iterations it does not warn. Without a crest element the search yields no number and no warning; with zero iterations it fails.", "quantifier": "all real-valued positive inputs (wave height, period, geometry, densities, damage) in the stated domain", "why_tests_cant": "The domain is a continuum of several real arguments; a finite set of samples cannot exclude a branch or argument combination where the identity breaks.", "anchors": ["deltares_coastal_structures_toolbox/functions/structural/stability_rock_rear/vangent2007.py"]}
{"id": "C50", "title": "Van Gent & Pozueta 2004 rear-side formulas are mutually inverse", "statement": "Damage, diameter and velocity functions invert one another exactly; run-up below the crest yields no number; leaving the rock density at its default yields no number although a default density is announced. For every damage there is exactly one wave height with run-up above the crest; the wave-height search returns it within twice its tolerance (for tolerances up to Rc/(10.2*gamma)) unless it warns that the iteration limit was reached, and on crests with 1.275*gamma_f*B <= Rc it does not warn when enough iterations are allowed.", "quantifier": "all real-valued positive inputs (wave height, period, geometry, densities, damage) in the stated domain", "why_tests_cant": "The domain is a continuum of several real arguments; a finite set of samples cannot exclude a branch or argument combination where the identity breaks.", "anchors": ["deltares_coastal_structures_toolbox/functions/structural/stability_rock_rear/vangentpozueta2004.py"]}
{"id": "C51", "title": "Gerding 1993 toe formulas are mutually inverse", "statement": "Damage, diameter, wave height and toe depth functions invert one another exactly; damage increases with wave height and decreases with diameter and toe depth.", "quantifier": "all real-valued positive inputs (wave height, period, geometry, densities, damage) in the stated domain", "why_tests_cant": "The domain is a continuum of several real arguments; a finite set of samples cannot exclude a branch or argument combination where the identity breaks.", "anchors": ["deltares_coastal_structures_toolbox/functions/structural/stability_toe_berm/gerding1993.py"]}
{"id": "C52", "title": "Van der Meer 1998 toe formulas are mutually inverse; the validity check uses the wrong stability number", "statement": "Damage, diameter, wave height and toe depth functions invert one another exactly where a positive toe depth exists, otherwise no number is returned; the validity check warns about stability numbers inside the documented range for some inputs and stays silent for some outside it.", "quantifier": "all real-valued positive inputs (wave height, period, geometry, densities, damage) in the stated domain", "why_tests_cant": "The domain is a continuum of several real arguments; a finite set of samples cannot exclude a branch or argument combination where the identity breaks.", "anchors": ["deltares_coastal_structures_toolbox/functions/structural/stability_toe_berm/vandermeer1998.py"]}
{"id": "C53", "title": "Etemad-Shahidi 2021 toe: the wave-height loop is not bounded by max_iter", "statement": "For foreshore slopes up to 1/3.7 the wave-height iteration terminates for every input and its result has a residual bounded by its fixed tolerance of 1 mm; for steeper foreshores there are inputs for which it never terminates, whatever max_iter; for slopes up to 1/3.7 the damage and diameter functions are exact inverses wherever the stability number exceeds 1.2; calling the validity check with both wave height and period raises TypeError.", "quantifier": "all positive inputs with the published coefficients, every starting steepness, every positive max_iter", "why_tests_cant": "Termination of an unbounded loop.", "anchors": ["deltares_coastal_structures_toolbox/functions/structural/stability_toe_berm/etemadshahidi2021.py"]}
{"id": "C54", "title": "Van Gent & Van der Werf 2014 toe: diameter and damage differ by a fixed factor", "statement": "Feeding the diameter computed for a damage level back into the damage function returns the damage times exactly 1000/1024 for every input.", "quantifier": "all real-valued positive inputs (wave height, period, geometry, densities, damage) in the stated domain", "why_tests_cant": "The domain is a continuum of several real arguments; a finite set of samples cannot exclude a branch or argument combination where the identity breaks.", "anchors": ["deltares_coastal_structures_toolbox/functions/structural/stability_toe_berm/vangentvanderwerf2014.py"]}
{"id": "C55", "title": "Takahashi 1990 caisson toe: lower bound, crashes and endless search", "statement": "The stability number is never below 1.8 and stone size and stability number are consistent; the wave-height search raises ValueError whenever the minimum stability number governs at its starting value; the toe-depth search never terminates when the requested stability number is below 1.8.", "quantifier": "all inputs, every number of search steps", "why_tests_cant": "Non-termination and crash sets quantify over all inputs and steps.", "anchors": ["deltares_coastal_structures_toolbox/functions/structural/stability_toe_berm/takahashi1990_caisson.py"]}
{"id": "C56", "title": "Neural-network and XGBoost input writers put every argument in the documented column", "statement": "In every row written, the value under each documented column is the argument of that name, for any number of rows, whatever the file held before; arrays of different lengths, a float angle with an array that has not exactly one value, and an integer angle without any array make the writer fail, leaving only comments (neural network) or the old file (XGBoost).", "quantifier": "any number of rows, all values", "why_tests_cant": "Unbounded number of rows.", "anchors": ["deltares_coastal_structures_toolbox/functions/hydraulic/wave_overtopping/vangent2007.py", "deltares_coastal_structures_toolbox/functions/hydraulic/wave_overtopping/denbieman2021.py"]}
{"id": "C57", "title": "Van Gent 2024 wave set-up", "statement": "For positive inputs above the limiting submergence (Rc/Hm0 = -1.6 impermeable, -1.5 permeable) the set-up is a positive number that strictly increases with the crest level; it is 0 at the limit and NaN below it; it scales with the length scale under Froude scaling; the warnings are exactly those of the published ranges, the crest width never being reported.", "quantifier": "all real-valued positive inputs (wave height, period, geometry, densities, damage) in the stated domain", "why_tests_cant": "The domain is a continuum of several real arguments; a finite set of samples cannot exclude a branch or argument combination where the identity breaks.", "anchors": ["deltares_coastal_structures_toolbox/functions/hydraulic/wave_transmission/vangent2024_setup.py"]}
{"id": "C59", "title": "Relative density, stability number and critical Iribarren number", "statement": "The relative density times the water density is the density difference; the stability number times relative density times diameter is the wave height and is the number the general solver completes; the critical Iribarren number is the only Iribarren number at which the plunging and surging stability formulas coincide.", "quantifier": "all positive inputs", "why_tests_cant": "The domain is a continuum of several real arguments; a finite set of samples cannot exclude a branch or argument combination where the identity breaks.", "anchors": ["deltares_coastal_structures_toolbox/functions/core_physics.py::calculate_buoyant_density_Delta", "deltares_coastal_structures_toolbox/functions/core_physics.py::calculate_stability_number_Ns", "deltares_coastal_structures_toolbox/functions/core_physics.py::calculate_critical_Iribarren_number_ksi_mc"]}
{"id": "C58", "title": "Validity warnings are exactly those of the documented ranges", "statement": "For every function with a validity check, the warnings issued are, in order, one per checked quantity outside its documented range, with the name, formula, value and bounds of that range, and none otherwise; missing (NaN) arguments are never reported. Some declared ranges are never checked by the formulas because the argument is not passed on (peak-period steepness in Van der Meer 1988, slope in Core-Loc, ten of eleven ranges in Etemad-Shahidi 2021, four in Van Gent 2007), and the 2021 rewriting of Van der Meer always warns about the ratio H2%/Hs.", "quantifier": "all arguments including NaN and infinities", "why_tests_cant": "Any argument combination, including missing and infinite ones, must give exactly the warnings of the ranges it leaves.", "anchors": ["deltares_coastal_structures_toolbox/functions/core_utility.py::check_variable_validity_range", "deltares_coastal_structures_toolbox/functions/hydraulic/wave_overtopping/deridder2024.py", "deltares_coastal_structures_toolbox/functions/hydraulic/wave_overtopping/deridder2026.py", "deltares_coastal_structures_toolbox/functions/hydraulic/wave_overtopping/vangent2021_caisson.py", "deltares_coastal_structures_toolbox/functions/hydraulic/wave_overtopping/vangent2025.py", "deltares_coastal_structures_toolbox/functions/hydraulic/wave_overtopping/eurotop2018.py", "deltares_coastal_structures_toolbox/functions/hydraulic/wave_overtopping/taw2002.py", "deltares_coastal_structures_toolbox/functions/hydraulic/wave_runup/taw2002.py", "deltares_coastal_structures_toolbox/functions/hydraulic/wave_runup/eurotop2018.py", "deltares_coastal_structures_toolbox/functions/hydraulic/wave_transmission/briganti2003.py", "deltares_coastal_structures_toolbox/functions/hydraulic/wave_transmission/dangremond1996.py", "deltares_coastal_structures_toolbox/functions/hydraulic/wave_transmission/vangent2024_setup.py", "deltares_coastal_structures_toolbox/functions/structural/forces_caisson/goda1985.py", "deltares_coastal_structures_toolbox/functions/structural/forces_crestwall/vangentvanderwerf2019.py", "deltares_coastal_structures_toolbox/functions/structural/stability_concrete_armour/accropode2_hudson1959.py", "deltares_coastal_structures_toolbox/functions/structural/stability_concrete_armour/accropode_hudson1959.py", "deltares_coastal_structures_toolbox/functions/structural/stability_concrete_armour/core_loc_hudson1959.py", "deltares_coastal_structures_toolbox/functions/structural/stability_concrete_armour/cubes_double_layer_vandermeer1988.py", "deltares_coastal_structures_toolbox/functions/structural/stability_rock_armour/etemadshahidi2020.py", "deltares_coastal_structures_toolbox/functions/structural/stability_rock_armour/jumelet2024.py", "deltares_coastal_structures_toolbox/functions/structural/stability_rock_armour/kramerburcharth2004_lowcrested.py", "deltares_coastal_structures_toolbox/functions/structural/stability_rock_armour/scaravaglione2025.py", "deltares_coastal_structures_toolbox/functions/structural/stability_rock_armour/vandermeer1988.py", "deltares_coastal_structures_toolbox/functions/structural/stability_rock_armour/vandermeer1988_modified.py", "deltares_coastal_structures_toolbox/functions/structural/stability_rock_armour/vandermeer2021.py", "deltares_coastal_structures_toolbox/functions/structural/stability_rock_rear/vangent2007.py", "deltares_coastal_structures_toolbox/functions/structural/stability_rock_rear/vangentpozueta2004.py", "deltares_coastal_structures_toolbox/functions/structural/stability_toe_berm/etemadshahidi2021.py", "deltares_coastal_structures_toolbox/functions/structural/stability_toe_berm/gerding1993.py", "deltares_coastal_structures_toolbox/functions/structural/stability_toe_berm/takahashi1990_caisson.py", "deltares_coastal_structures_toolbox/functions/structural/stability_toe_berm/vandermeer1998.py", "deltares_coastal_structures_toolbox/functions/structural/stability_toe_berm/vangentvanderwerf2014.py"]}
{"id": "C60", "title": "Goda dictionaries agree with the returned tuples", "statement": "The dictionary versions raise exactly when the tuple versions do and hold the same values under their names together with the inputs; the dictionary of the reactions has no entry Bup, stores the angle with its sign, and its is_valid entry is always None.", "quantifier": "all arguments, including NaN and infinities", "why_tests_cant": "The domain is a continuum of several real arguments; a finite set of samples cannot exclude a branch or argument combination where the identity breaks.", "anchors": ["deltares_coastal_structures_toolbox/functions/structural/forces_caisson/goda1985.py"]}
{"id": "C61", "title": "Calls with arrays work place by place", "statement": "When the arguments broadcast to a common shape, the result of the call has that shape and each of its entries is what the call with the scalars at that place returns; when they do not broadcast together the call does not return. Stone sizes may be given as diameters or as masses, for all places at once.", "quantifier": "all arrays with at most one axis, of any length, with any entries including NaN and infinities", "why_tests_cant": "Any length, any combination of scalars, one-entry and longer arrays, any values.", "anchors": ["deltares_coastal_structures_toolbox/functions/core_physics.py", "deltares_coastal_structures_toolbox/functions/structural/stability_rock_armour/vandermeer1988.py", "deltares_coastal_structures_toolbox/functions/structural/stability_rock_armour/vandermeer1988_modified.py", "deltares_coastal_structures_toolbox/functions/structural/stability_rock_armour/vandermeer2021.py", "deltares_coastal_structures_toolbox/functions/structural/stability_rock_armour/scaravaglione2025.py", "deltares_coastal_structures_toolbox/functions/structural/stability_rock_armour/hudson1959.py", "deltares_coastal_structures_toolbox/functions/structural/stability_concrete_armour/accropode_hudson1959.py", "deltares_coastal_structures_toolbox/functions/structural/stability_concrete_armour/accropode2_hudson1959.py", "deltares_coastal_structures_toolbox/functions/structural/stability_concrete_armour/core_loc_hudson1959.py", "deltares_coastal_structures_toolbox/functions/structural/stability_concrete_armour/cubes_double_layer_hudson1959.py", "deltares_coastal_structures_toolbox/functions/structural/stability_concrete_armour/cubes_double_layer_vandermeer1988.py", "deltares_coastal_structures_toolbox/functions/structural/stability_concrete_armour/cubes_single_layer_vangent2002.py", "deltares_coastal_structures_toolbox/functions/structural/stability_concrete_armour/cubipod_hudson1959.py", "deltares_coastal_structures_toolbox/functions/structural/stability_concrete_armour/tetrapod_hudson1959.py", "deltares_coastal_structures_toolbox/functions/structural/stability_toe_berm/gerding1993.py", "deltares_coastal_structures_toolbox/functions/structural/stability_toe_berm/vandermeer1998.py", "deltares_coastal_structures_toolbox/functions/structural/stability_toe_berm/vangentvanderwerf2014.py", "deltares_coastal_structures_toolbox/functions/hydraulic/wave_runup/vangent2001.py", "deltares_coastal_structures_toolbox/functions/hydraulic/wave_overtopping/vangent2002_velocity.py", "deltares_coastal_structures_toolbox/functions/hydraulic/wave_overtopping/deridder2024.py", "deltares_coastal_structures_toolbox/functions/hydraulic/wave_overtopping/deridder2026.py", "deltares_coastal_structures_toolbox/functions/hydraulic/wave_transmission/dangremond1996.py", "deltares_coastal_structures_toolbox/functions/hydraulic/wave_transmission/vangent2024_setup.py", "deltares_coastal_structures_toolbox/functions/structural/forces_crestwall/vangentvanderwerf2019.py", "deltares_coastal_structures_toolbox/functions/structural/stability_rock_armour/kramerburcharth2004_lowcrested.py", "deltares_coastal_structures_toolbox/functions/structural/stability_rock_armour/etemadshahidi2020.py", "deltares_coastal_structures_toolbox/functions/structural/stability_rock_armour/jumelet2024.py", "deltares_coastal_structures_toolbox/functions/structural/stability_rock_rear/vangent2007.py", "deltares_coastal_structures_toolbox/functions/structural/stability_rock_rear/vangentpozueta2004.py", "deltares_coastal_structures_toolbox/functions/structural/stability_toe_berm/etemadshahidi2021.py"]}
{"id": "C62", "title": "Where calls with arrays are not calls for each place", "statement": "A stone size missing at some places only is not completed from the mass, and a density missing at some places only is not replaced by the default; one missing entry switches the validity check of that quantity off for all places; the toe depth of Van der Meer (1998) and the 2% run-up of Van Gent (2001) raise ValueError for two or more wave heights; one damage percentage of 100 or more makes the Hudson functions raise IndexError for all places; the transmission of Van Gent et al. (2023) uses the first of several periods for all places.", "quantifier": "all arrays with at most one axis, of any length", "why_tests_cant": "Any length and values.", "anchors": ["deltares_coastal_structures_toolbox/functions/core_physics.py::check_usage_Dn50_or_M50", "deltares_coastal_structures_toolbox/functions/core_physics.py::calculate_local_wavelength", "deltares_coastal_structures_toolbox/functions/core_utility.py::check_variable_validity_range", "deltares_coastal_structures_toolbox/functions/structural/stability_rock_armour/vandermeer1988.py::check_validity_range", "deltares_coastal_structures_toolbox/functions/structural/stability_toe_berm/vandermeer1998.py::calculate_depth_above_toe_ht", "deltares_coastal_structures_toolbox/functions/hydraulic/wave_runup/vangent2001.py::calculate_wave_runup_height_z2p", "deltares_coastal_structures_toolbox/functions/structural/stability_rock_armour/hudson1959.py::lookup_table_damage_factors", "deltares_coastal_structures_toolbox/functions/hydraulic/wave_transmission/vangent2023.py::calculate_wave_transmission_Kt"]}
{"id": "C63", "title": "Iterations over arrays are made for all places together", "statement": "When an iterating function is called with arrays, all places go through the same number of iterations: the iterations go on until no place changes by more than the tolerance or max_iter is reached, and each entry of the result is what the scalar function gives after that number of iterations. A place whose result is NaN ends the iterations for all places, also for those that have not settled; empty arrays raise ValueError. The rear-side searches warn that the iterations are used up exactly when all of them were made, for all places together, and raise UnboundLocalError when one starting value is not finite; the wave height of the toe of Etemad-Shahidi et al. (2021) ignores max_iter and does not return when one place never settles. For the low-crested structures of Kramer & Burcharth, when every place is in the published range, every entry of the result is as accurate as the scalar results.", "quantifier": "all arrays with at most one axis, of any length, with any entries, any tolerance and any positive max_iter", "why_tests_cant": "Any length, any number of iterations, any combination of places that settle early, late or never.", "anchors": ["deltares_coastal_structures_toolbox/functions/structural/stability_rock_armour/kramerburcharth2004_lowcrested.py", "deltares_coastal_structures_toolbox/functions/structural/stability_rock_armour/etemadshahidi2020.py", "deltares_coastal_structures_toolbox/functions/structural/stability_rock_armour/jumelet2024.py", "deltares_coastal_structures_toolbox/functions/structural/stability_rock_rear/vangent2007.py", "deltares_coastal_structures_toolbox/functions/structural/stability_rock_rear/vangentpozueta2004.py", "deltares_coastal_structures_toolbox/functions/structural/stability_toe_berm/etemadshahidi2021.py"]}
{"id": "C64", "title": "Run-up and overtopping of TAW (2002) take arrays only without a computed berm", "statement": "On a single slope with the influence of the berm given as one number (for overtopping also: without a berm), the run-up, the discharge, the crest freeboard and their dimensionless forms give at each place the number and the flag that the scalar function gives there; arguments that do not broadcast together raise ValueError, and so does an influence factor of the wall that the other arguments are not as wide as. An influence factor of the berm with several entries, a composite slope with an array for the wave height, the berm or a slope, and a berm whose influence has to be computed from any array, even with one entry, raise ValueError, since np.min([x, 1.0]) does not take an array x.", "quantifier": "all arrays with at most one axis, of any length, with any entries; for the errors on composite slopes and computed berms: finite wave heights, and positive ones with positive berm width and slope for a computed berm", "why_tests_cant": "Any length and values, any combination of scalars and arrays.", "anchors": ["deltares_coastal_structures_toolbox/functions/hydraulic/wave_runup/taw2002.py::calculate_wave_runup_height_z2p", "deltares_coastal_structures_toolbox/functions/hydraulic/wave_runup/taw2002.py::calculate_dimensionless_wave_runup_height_z2p", "deltares_coastal_structures_toolbox/functions/hydraulic/wave_runup/taw2002.py::calculate_influence_berm_gamma_b", "deltares_coastal_structures_toolbox/functions/hydraulic/wave_overtopping/taw2002.py::calculate_overtopping_discharge_q", "deltares_coastal_structures_toolbox/functions/hydraulic/wave_overtopping/taw2002.py::calculate_dimensionless_overtopping_discharge_q", "deltares_coastal_structures_toolbox/functions/hydraulic/wave_overtopping/taw2002.py::calculate_crest_freeboard_Rc", "deltares_coastal_structures_toolbox/functions/hydraulic/wave_overtopping/taw2002.py::calculate_dimensionless_crest_freeboard"]}
{"id": "C65", "title": "Validity checks with arrays warn about exactly the places that are out of range", "statement": "When the arguments of a validity check go together and each is given at every place or at none, the check issues a warning if and only if the scalar check issues that warning (same quantity, value and range) at some place, and it returns or raises as the scalar check does at every place.", "quantifier": "all arrays with at most one axis, of any positive length, with any entries", "why_tests_cant": "Any length, any combination of values inside and outside their ranges.", "anchors": ["deltares_coastal_structures_toolbox/functions/core_utility.py::check_variable_validity_range", "deltares_coastal_structures_toolbox/functions/hydraulic/wave_overtopping/deridder2024.py::check_validity_range", "deltares_coastal_structures_toolbox/functions/hydraulic/wave_overtopping/deridder2026.py::check_validity_range", "deltares_coastal_structures_toolbox/functions/hydraulic/wave_overtopping/eurotop2018.py::check_validity_range_rubble_mound", "deltares_coastal_structures_toolbox/functions/hydraulic/wave_overtopping/taw2002.py::check_validity_range", "deltares_coastal_structures_toolbox/functions/hydraulic/wave_runup/taw2002.py::check_validity_range", "deltares_coastal_structures_toolbox/functions/hydraulic/wave_transmission/dangremond1996.py::check_validity", "deltares_coastal_structures_toolbox/functions/hydraulic/wave_transmission/vangent2024_setup.py::check_validity_range", "deltares_coastal_structures_toolbox/functions/structural/stability_rock_armour/vandermeer1988.py::check_validity_range", "deltares_coastal_structures_toolbox/functions/structural/stability_rock_rear/vangent2007.py::check_validity_range", "deltares_coastal_structures_toolbox/functions/structural/stability_toe_berm/etemadshahidi2021.py::check_validity"]}
{"id": "C66", "title": "EurOtop with arrays: place by place, but not with an array of wave periods only", "statement": "The rubble-mound formulas of EurOtop (2007), and on a single slope those of EurOtop (2018), give at each place what the scalar function gives there, and raise ValueError when the arguments do not broadcast together. The discharge and the crest freeboard of EurOtop (2018) do so, without a berm, only when the arguments of the equation and those of its limit have the same common shape: the discharge raises ValueError for an array of wave periods, of slopes or of walls when the wave height, the freeboard, the angle, the roughness and the crest factor are numbers, although all arguments broadcast together; the freeboard takes such arrays, but none of them takes an array of the crest factor alone. Roughnesses with several entries raise ValueError when the influence of oblique waves has to be computed from the angle, which the run-up of EurOtop (2018) always does: there the angle is needed even when the influence factor is given. Composite slopes and berms raise ValueError with arrays.", "quantifier": "all arrays with at most one axis, of any length, with any entries; for the errors on composite slopes and berms: finite wave heights, and positive ones with positive berm width and slope for a berm", "why_tests_cant": "Any length and values, any combination of scalars and arrays; the tests have no arrays of wave periods.", "anchors": ["deltares_coastal_structures_toolbox/functions/hydraulic/wave_overtopping/eurotop2007.py::calculate_overtopping_discharge_q_rubble_mound", "deltares_coastal_structures_toolbox/functions/hydraulic/wave_overtopping/eurotop2007.py::calculate_dimensionless_overtopping_discharge_q_rubble_mound", "deltares_coastal_structures_toolbox/functions/hydraulic/wave_overtopping/eurotop2007.py::calculate_crest_freeboard_Rc_rubble_mound", "deltares_coastal_structures_toolbox/functions/hydraulic/wave_overtopping/eurotop2007.py::calculate_dimensionless_crest_freeboard_rubble_mound", "deltares_coastal_structures_toolbox/functions/hydraulic/wave_overtopping/eurotop2018.py::calculate_overtopping_discharge_q", "deltares_coastal_structures_toolbox/functions/hydraulic/wave_overtopping/eurotop2018.py::calculate_dimensionless_overtopping_discharge_q", "deltares_coastal_structures_toolbox/functions/hydraulic/wave_overtopping/eurotop2018.py::calculate_crest_freeboard_Rc", "deltares_coastal_structures_toolbox/functions/hydraulic/wave_overtopping/eurotop2018.py::calculate_dimensionless_crest_freeboard", "deltares_coastal_structures_toolbox/functions/hydraulic/wave_overtopping/eurotop2018.py::calculate_overtopping_discharge_q_rubble_mound", "deltares_coastal_structures_toolbox/functions/hydraulic/wave_overtopping/eurotop2018.py::calculate_crest_freeboard_Rc_rubble_mound", "deltares_coastal_structures_toolbox/functions/hydraulic/wave_runup/eurotop2018.py::calculate_wave_runup_height_z2p", "deltares_coastal_structures_toolbox/functions/hydraulic/wave_runup/eurotop2018.py::calculate_dimensionless_wave_runup_height_z2p", "deltares_coastal_structures_toolbox/functions/hydraulic/wave_runup/eurotop2018.py::calculate_influence_oblique_waves_gamma_beta"]}
{"id": "C67", "title": "Formulas called with arrays report exactly what is out of range at some place", "statement": "When the arguments of a formula go together, and each argument or intermediate result that is checked against a range is a number at every place or at none, the call with arrays ends as the scalar call does at every place (with the same exception, or with its result at that place), and it issues a warning if and only if the scalar call issues that warning at some place: no place out of range goes unreported because others are in range, and no warning is issued that no place deserves. With a missing entry among numbers this fails: the call is silent about the other places.", "quantifier": "all arrays with at most one axis, of any positive length, with any entries including infinities", "why_tests_cant": "Any length, any combination of places inside and outside the ranges; the tests look at no warnings of calls with arrays.", "anchors": ["deltares_coastal_structures_toolbox/functions/core_utility.py::check_variable_validity_range", "deltares_coastal_structures_toolbox/functions/core_physics.py::check_usage_Dn50_or_M50", "deltares_coastal_structures_toolbox/functions/structural/stability_rock_armour/vandermeer1988.py", "deltares_coastal_structures_toolbox/functions/structural/stability_rock_armour/vandermeer1988_modified.py", "deltares_coastal_structures_toolbox/functions/structural/stability_rock_armour/scaravaglione2025.py", "deltares_coastal_structures_toolbox/functions/structural/stability_rock_armour/etemadshahidi2020.py", "deltares_coastal_structures_toolbox/functions/structural/stability_rock_armour/jumelet2024.py", "deltares_coastal_structures_toolbox/functions/structural/stability_rock_armour/kramerburcharth2004_lowcrested.py", "deltares_coastal_structures_toolbox/functions/structural/stability_rock_armour/hudson1959.py", "deltares_coastal_structures_toolbox/functions/structural/stability_concrete_armour/accropode2_hudson1959.py", "deltares_coastal_structures_toolbox/functions/structural/stability_concrete_armour/cubes_double_layer_vandermeer1988.py", "deltares_coastal_structures_toolbox/functions/structural/stability_toe_berm/gerding1993.py", "deltares_coastal_structures_toolbox/functions/structural/stability_toe_berm/vangentvanderwerf2014.py", "deltares_coastal_structures_toolbox/functions/structural/stability_toe_berm/etemadshahidi2021.py", "deltares_coastal_structures_toolbox/functions/structural/stability_rock_rear/vangent2007.py", "deltares_coastal_structures_toolbox/functions/structural/stability_rock_rear/vangentpozueta2004.py", "deltares_coastal_structures_toolbox/functions/structural/forces_crestwall/vangentvanderwerf2019.py", "deltares_coastal_structures_toolbox/functions/hydraulic/wave_overtopping/deridder2024.py", "deltares_coastal_structures_toolbox/functions/hydraulic/wave_overtopping/deridder2026.py", "deltares_coastal_structures_toolbox/functions/hydraulic/wave_transmission/dangremond1996.py", "deltares_coastal_structures_toolbox/functions/hydraulic/wave_transmission/vangent2024_setup.py", "deltares_coastal_structures_toolbox/functions/hydraulic/wave_runup/vangent2001.py"]}
{"id": "C68", "title": "Xbloc sizes work place by place, the Xbloc correction factors want one number", "statement": "Unit volumes, unit masses and wave heights of Xbloc and XblocPlus called with arrays give at every place what the scalar call gives there, and raise ValueError exactly when the arrays do not go together. The correction factors for sea bed slope, freeboard, water depth and structure slope give the scalar factor for one number (also one in an array); with an array of several entries, or of none, they raise ValueError instead of giving a factor per place.", "quantifier": "all arrays with at most one axis, of any length, with any entries", "why_tests_cant": "Any length and values and any combination of scalars and arrays; the tests call these functions with scalars only.", "anchors": ["deltares_coastal_structures_toolbox/functions/structural/stability_concrete_armour/xbloc.py", "deltares_coastal_structures_toolbox/functions/structural/stability_concrete_armour/xblocplus.py"]}
{"id": "C69", "title": "Van Gent (2021) for caissons with arrays: place by place, one influence factor, one swell height", "statement": "Overtopping discharge and crest freeboard of caissons called with arrays of wave heights, freeboards or discharges and wave angles give at every place what the scalar call gives there; the wave angle only counts (and only has to go together with the rest) when no influence factor is given. They raise ValueError exactly when the arrays do not go together, when the influence factor is not one number, when with crossing seas the swell height is not one number or is missing, and when no coefficients exist for the exponent and the wave type. When checked quantities are numbers everywhere or nowhere, the call issues a warning if and only if the scalar call issues it at some place.", "quantifier": "all arrays with at most one axis, of any length, with any entries; all coefficients; all combinations of the switches", "why_tests_cant": "Any length and values; the tests have no arrays for the caisson formulas.", "anchors": ["deltares_coastal_structures_toolbox/functions/hydraulic/wave_overtopping/vangent2021_caisson.py"]}
{"id": "C70", "title": "Van Gent (2025) with arrays: place by place, with wind only for a crest that fits", "statement": "Overtopping discharge and crest freeboard of Van Gent (2025) called with arrays give at every place what the scalar call gives there. The influence factors of oblique waves, berm and roughness have to be one number each, and so does the stone size when it is needed for the roughness: otherwise the call raises ValueError. With the influence of wind the discharge takes the common shape of the crest level and the other arguments while its flag keeps the shape without the crest level; the freeboard raises ValueError as soon as the crest level has more places than the other arguments or there is no place, and otherwise makes the same number of iterations for all places, each entry being the scalar result after that many iterations. Discharges also raise ValueError when stone size, crest or berm do not go together with given wave heights and freeboards in the validity check.", "quantifier": "all arrays with at most one axis, of any length, with any entries; all combinations of the switches; any iteration limit and tolerance", "why_tests_cant": "Any length, values and combination of scalars and arrays; the tests call these functions with scalars only.", "anchors": ["deltares_coastal_structures_toolbox/functions/hydraulic/wave_overtopping/vangent2025.py"]}
{"id": "C71", "title": "Goda (1985) with arrays: the angle, wave height and freeboard are one number, of several periods the first counts", "statement": "The weight of the caisson and the safety factors work place by place. The bearing pressure takes one number for every argument and raises ValueError otherwise. The pressures and forces take one number for the angle, the design wave height and the freeboard (ValueError otherwise; UnboundLocalError for a NaN angle); with these as floats, the other arguments can be arrays and each result has the common shape of the arguments it depends on and equals the scalar result at every place, with the same warnings, provided that the width of the berm is NaN, or that the depth is a float and the other arguments of the check for impulsive breaking are one number each. Several depths go with one float as period or with as many periods; an array of depths with fewer than two entries or a different number of periods is an UnboundLocalError. With one float as depth, only the first of several periods counts, whatever the place, and an empty array of periods is an IndexError. Forces and reactions take an array only for the friction factor, which bears on the safety against sliding only; several entries of any other argument raise ValueError. The validity check reports the warnings of the places.", "quantifier": "all arrays with at most one axis, of any length, with any entries; any solver of the dispersion relation", "why_tests_cant": "Any length, values and combination of scalars and arrays; the tests call these functions with scalars only.", "anchors": ["deltares_coastal_structures_toolbox/functions/structural/forces_caisson/goda1985.py", "deltares_coastal_structures_toolbox/functions/core_physics.py"]}
{"id": "C72", "title": "Takahashi (1990) with arrays: depths need as many periods, the search for the depth takes one float as wave height", "statement": "Stability number and stone size work place by place when the depths and periods are two floats, or there are several depths with one float as period or as many periods, with the warnings of the places when the toe width is given everywhere or nowhere and the stability number is a number everywhere or nowhere; arguments that do not broadcast are a ValueError. An array of depths with fewer than two entries or with another number of periods is an UnboundLocalError, an empty array of periods with one float as depth an IndexError; of several periods with one float as depth only the first counts. The search for the depth with one float as wave height and one number for the other arguments is the search with numbers, with the same warnings and the same exceptions, and of several periods the first counts. With an array of wave heights it never works: ValueError, or UnboundLocalError when the periods do not match or there are fewer than two; nor with several stones, densities, toe widths or angles (ValueError).", "quantifier": "all arrays with at most one axis, of any length, with any entries; any solver of the dispersion relation; every number of search steps", "why_tests_cant": "Any length, values and combination of scalars and arrays; the tests call these functions with scalars only.", "anchors": ["deltares_coastal_structures_toolbox/functions/structural/stability_toe_berm/takahashi1990_caisson.py", "deltares_coastal_structures_toolbox/functions/core_physics.py"]}
{"id": "C73", "title": "The listed unit properties agree with the functions of the units, with exceptions", "statement": "The mass computed with a coefficient listed in unit_properties obeys the Hudson relation with the published coefficient, does not decrease from a milder to a harsher situation (head instead of trunk, breaking instead of non-breaking waves), and gives the wave height back. The seabed-slope functions never exceed the listed coefficient for non-breaking waves and reach it on a flat seabed; the bounds listed for Accropode II are reached; the Accropode function goes below every listed coefficient on a steep seabed within its range. The head coefficient of cubes under breaking waves is None, so that using it is a TypeError; no name of a coefficient is common to all units. On a slope of 1.33 Xbloc and XblocPlus sizes exceed the Hudson mass with the listed coefficient by at most 0.13 % and 2.15 %, and are never below it.", "quantifier": "all real-valued positive inputs; all seabed slopes; all names", "why_tests_cant": "The tests do not read the dictionaries; the relations hold over a continuum of inputs.", "anchors": ["deltares_coastal_structures_toolbox/functions/structural/stability_concrete_armour/accropode_hudson1959.py", "deltares_coastal_structures_toolbox/functions/structural/stability_concrete_armour/accropode2_hudson1959.py", "deltares_coastal_structures_toolbox/functions/structural/stability_concrete_armour/core_loc_hudson1959.py", "deltares_coastal_structures_toolbox/functions/structural/stability_concrete_armour/cubes_double_layer_hudson1959.py", "deltares_coastal_structures_toolbox/functions/structural/stability_concrete_armour/cubes_double_layer_vandermeer1988.py", "deltares_coastal_structures_toolbox/functions/structural/stability_concrete_armour/cubes_single_layer_vangent2002.py", "deltares_coastal_structures_toolbox/functions/structural/stability_concrete_armour/cubipod_hudson1959.py", "deltares_coastal_structures_toolbox/functions/structural/stability_concrete_armour/tetrapod_hudson1959.py", "deltares_coastal_structures_toolbox/functions/structural/stability_concrete_armour/xbloc.py", "deltares_coastal_structures_toolbox/functions/structural/stability_concrete_armour/xblocplus.py"]}
{"id": "C74", "title": "In double precision KD follows the design curve as well, but loses 0.1 at a seabed slope of 5 % for Accropodes", "statement": "With every operation rounded to double precision the KD of accropode, accropode II and core-loc is 0.1 times a whole number (rounded) within the table limits, at most 0.1 below the design curve and not above it up to 1e-13, equal to the limits for flat and steep seabeds, and never increases with the seabed slope; it differs from the result of exact arithmetic by less than 0.1 + 1e-13. The difference does occur: for a seabed slope of 5 % the Accropode function yields 9.6, where the design table and exact arithmetic have 9.7.", "quantifier": "all real slopes (all doubles among them)", "why_tests_cant": "The slope is any double; that no slope breaks the order or leaves the table is beyond sampling.", "anchors": ["deltares_coastal_structures_toolbox/functions/structural/stability_concrete_armour/accropode_hudson1959.py", "deltares_coastal_structures_toolbox/functions/structural/stability_concrete_armour/accropode2_hudson1959.py", "deltares_coastal_structures_toolbox/functions/structural/stability_concrete_armour/core_loc_hudson1959.py"]}
{"id": "C75", "title": "Overtopping and run-up with arrays warn as the scalar functions do at some place", "statement": "Called with arrays that go together, the discharges and freeboards of TAW (2002) on a single slope (with any sigma, so including the warning that sigma cannot be used), the run-up heights of TAW (2002) and, with the angle given everywhere and one number for the roughness, of EurOtop (2018) on a single slope with one number as influence factor of the berm, the rubble mound discharges and freeboards of EurOtop (2018), and the discharges of Van Gent (2025) issue exactly the warnings that the scalar function issues at some place, provided each argument that is checked is given at every place or at none. So do the freeboards of Van Gent (2025), when the calculated freeboard is a number at every place or at none; with wind, the scalar calculation is the one with the number of iterations that the array call makes. The functions of EurOtop (2007) issue no warning, whatever their arguments, and neither do the discharges and freeboards of EurOtop (2018) for a single slope without a berm.", "quantifier": "all arrays with at most one axis, of any positive length, with any entries; all coefficients and switches; any iteration limit and tolerance", "why_tests_cant": "Which warnings come out is a statement about every place of every array; the tests use scalars and do not look at warnings.", "anchors": ["deltares_coastal_structures_toolbox/functions/hydraulic/wave_overtopping/taw2002.py", "deltares_coastal_structures_toolbox/functions/hydraulic/wave_runup/taw2002.py", "deltares_coastal_structures_toolbox/functions/hydraulic/wave_runup/eurotop2018.py", "deltares_coastal_structures_toolbox/functions/hydraulic/wave_overtopping/eurotop2007.py", "deltares_coastal_structures_toolbox/functions/hydraulic/wave_overtopping/eurotop2018.py", "deltares_coastal_structures_toolbox/functions/hydraulic/wave_overtopping/vangent2025.py"]}
{"id": "C76", "title": "Formulas give the same answer on every scale", "statement": "Multiply all lengths of a call by l > 0, all times by the square root of l (Froude's law), all discharges by l^1.5, all masses by d l^3 and, where the function takes the density of water, all densities by d > 0, and leave the numbers without dimension and gravity as they are. Then the call ends in the same exception, or in the result of the original call times the factor of its dimension (1, l, sqrt l, l^1.5, d l^3, d l, d l^2), for every function of the wave, stone and unit basics, Hudson and the concrete units, Van der Meer (1988, modified, 2021), Scaravaglione (2025), Etemad-Shahidi (2020, 2021), Jumelet (2024), Kramer and Burcharth (2004), Gerding (1993), Van der Meer (1998), Van Gent and Van der Werf (2014), Van Gent (2001, 2002, 2007, 2021, 2024, 2025), Van Gent and Pozueta (2004), d'Angremond (1996), Briganti (2003), Goda (1967, 1985), Takahashi (1990), EurOtop (2007, 2018), TAW (2002), De Ridder (2024, 2026) and crest walls (2019), apart from the wave height of Etemad-Shahidi (2021), the wave height and the depth above the toe of Takahashi (1990), the damage conversions of stones (whose numbers have no dimension), and what is said below to be false. It also issues the same warnings, except in formulas that warn about a density (the same warnings if d = 1) and in those that warn about lengths or periods themselves (cubes, Van der Meer (1998), the reactions of Goda (1985), Takahashi (1990)). TAW and EurOtop are on a single slope, or with a tolerance of the iteration that is scaled too; so are the iterations of Kramer and Burcharth and of Van Gent (2007). False of the code: the default tolerance of Kramer and Burcharth is a number of metres, so at a scale of 1 to 10000 the default call stops elsewhere; the warnings of Van der Meer (1998) differ on a scale of 1 to 4 (one of the numbers it checks is an area); and the search for the largest wave height of Van Gent and Pozueta (2004) starts from the crest level plus half a metre, so that the result after one step does not follow the scale.", "quantifier": "all scales l > 0 and d > 0, all arguments including infinities, NaN and negative numbers, all coefficients; for Van der Meer's wave heights any finite notional permeability other than -2; for Goda and Takahashi any positive period and depth and any exact solution of the dispersion relation", "why_tests_cant": "A formula with a wrong exponent or a forgotten gravity gives a plausible number at the one scale of a test; that no function depends on the scale is a statement about all of them at once.", "anchors": ["deltares_coastal_structures_toolbox/functions/core_physics.py", "deltares_coastal_structures_toolbox/functions/structural/stability_rock_armour/vandermeer1988.py", "deltares_coastal_structures_toolbox/functions/structural/stability_rock_armour/kramerburcharth2004_lowcrested.py", "deltares_coastal_structures_toolbox/functions/structural/stability_toe_berm/vandermeer1998.py", "deltares_coastal_structures_toolbox/functions/structural/stability_rock_rear/vangentpozueta2004.py", "deltares_coastal_structures_toolbox/functions/hydraulic/wave_overtopping/taw2002.py", "deltares_coastal_structures_toolbox/functions/hydraulic/wave_overtopping/eurotop2018.py", "deltares_coastal_structures_toolbox/functions/structural/forces_caisson/goda1985.py"]}
{"id": "C77", "title": "Larger waves give more overtopping and ask for a higher crest", "statement": "For a crest at or above still water (above the part of the freeboard taken by swell or infragravity waves) the discharge grows strictly with the wave height at a fixed period and does not fall with the period, for EurOtop (2007) and EurOtop (2018) rubble mounds with a roughness factor of at least 0.1, EurOtop (2018) slopes without a berm and TAW (2002) slopes without a berm with a roughness factor of at least 0.18, and for smooth TAW slopes with any berm factor (for the period: as long as the Iribarren number is at most 10 on rough slopes). It does not fall with the roughness factor either (EurOtop). For De Ridder (2024, 2026) at a given steepness, Van Gent (2021) and Van Gent (2025) it grows with the wave height while steepness, slope angle or freeboard fall and period, influence factors, swell or infragravity waves increase, in any combination. The crest level from the inverse functions is higher for larger waves and for a smaller allowed discharge. False of the code: on a rough TAW slope with a berm factor of 0.8 a larger wave can give less overtopping (the roughness factor, adjusted between berm factor times Iribarren numbers of 1.8 and 10, falls faster than the discharge grows), and over a EurOtop (2007) mound doubling the period can reduce the discharge (the adjusted roughness drops from 1 to its given value where the Iribarren number passes 10).", "quantifier": "all wave heights, periods, slopes, crest levels, roughness factors, coefficients and gravities in the stated ranges", "why_tests_cant": "That a larger load never gives a smaller response is a comparison between all pairs of calls; a test at a few points does not see the places where a formula turns around.", "anchors": ["deltares_coastal_structures_toolbox/functions/hydraulic/wave_overtopping/eurotop2007.py", "deltares_coastal_structures_toolbox/functions/hydraulic/wave_overtopping/eurotop2018.py", "deltares_coastal_structures_toolbox/functions/hydraulic/wave_overtopping/taw2002.py", "deltares_coastal_structures_toolbox/functions/hydraulic/wave_overtopping/deridder2024.py", "deltares_coastal_structures_toolbox/functions/hydraulic/wave_overtopping/deridder2026.py", "deltares_coastal_structures_toolbox/functions/hydraulic/wave_overtopping/vangent2021_caisson.py", "deltares_coastal_structures_toolbox/functions/hydraulic/wave_overtopping/vangent2025.py"]}
{"id": "C78", "title": "Larger waves ask for larger stones", "statement": "The stone and unit sizes grow with the waves and never fall when the waves get higher, the allowed damage smaller or the material lighter: Van der Meer (1988, modified, 2021) with the height, the ratio of the 2% height, the damage, the number of waves and the density; the formula of Hudson for rock and six concrete units with height, density, stability coefficient, slope and ratio; single- and double-layer cubes, Xbloc and XblocPlus; Scaravaglione et al.; the four toe formulas, also with the water above the toe and the toe's width; and both rear-side formulas with the whole geometry. For the Van der Meer formulas the stones needed on a slope steeper than 1:4 are largest for waves at the transition from plunging to surging, and a gentler slope asks for smaller stones as long as the permeability is below a half and the slope stays on one side of 1:4. Refuted: longer waves always ask for larger stones; a gentler slope always asks for smaller ones (it asks for larger ones with a permeability of 0.6, and where the code changes formula at 1:4); higher waves always ask for larger stones in Jumelet et al. (the rounded number of plunging waves drops); a lower crest always asks for larger stones on the rear side in Van Gent (2007). The two rear-side formulas respond in opposite directions to the rear slope.", "quantifier": "all pairs of positive real-valued arguments ordered as stated, all coefficients and geometry; the rear-side formulas with the run-up above the crest", "why_tests_cant": "Monotonicity compares every pair of points of a continuum of up to twelve arguments; pointwise reference values say nothing about the order of two neighbouring results, and the exceptions sit at isolated switches (rounding, 1:4, plunging to surging).", "anchors": ["deltares_coastal_structures_toolbox/functions/structural/stability_rock_armour/vandermeer1988.py", "deltares_coastal_structures_toolbox/functions/structural/stability_rock_armour/vandermeer1988_modified.py", "deltares_coastal_structures_toolbox/functions/structural/stability_rock_armour/vandermeer2021.py", "deltares_coastal_structures_toolbox/functions/structural/stability_rock_armour/hudson1959.py", "deltares_coastal_structures_toolbox/functions/structural/stability_rock_armour/scaravaglione2025.py", "deltares_coastal_structures_toolbox/functions/structural/stability_rock_armour/jumelet2024.py", "deltares_coastal_structures_toolbox/functions/structural/stability_concrete_armour/cubes_double_layer_vandermeer1988.py", "deltares_coastal_structures_toolbox/functions/structural/stability_concrete_armour/cubes_single_layer_vangent2002.py", "deltares_coastal_structures_toolbox/functions/structural/stability_concrete_armour/xbloc.py", "deltares_coastal_structures_toolbox/functions/structural/stability_toe_berm/gerding1993.py", "deltares_coastal_structures_toolbox/functions/structural/stability_toe_berm/vandermeer1998.py", "deltares_coastal_structures_toolbox/functions/structural/stability_toe_berm/etemadshahidi2021.py", "deltares_coastal_structures_toolbox/functions/structural/stability_toe_berm/vangentvanderwerf2014.py", "deltares_coastal_structures_toolbox/functions/structural/stability_rock_rear/vangent2007.py", "deltares_coastal_structures_toolbox/functions/structural/stability_rock_rear/vangentpozueta2004.py"]}
{"id": "C79", "title": "Larger waves load walls and caissons more, and make a caisson less safe", "statement": "Goda: with the same caisson, higher design and significant waves, longer periods, denser water or less oblique waves give pressures, horizontal forces, uplift and moments that are not smaller, and larger ones when the design wave, the period or the density grows or waves beyond 15 degrees turn towards the normal; a higher caisson that is still overtopped catches more, a wider one more uplift. Both safety factors fall with the waves as long as they are not negative, and while the caisson neither floats nor overturns the pressure under its heel rises. Crest walls: the horizontal and vertical forces of perpendicular waves do not fall, and rise wherever there is a force, when waves get higher or longer, the slope steeper, the influence factors, the wall or the density larger, the armour crest (horizontal) or the base (vertical) lower; oblique waves above the armour crest push harder when larger or less oblique. Refuted: a lower armour crest gives more uplift (it can take all of it away); larger oblique waves push harder (for every pair of wave heights there is an armour crest where the smaller wave gives zero and the larger a negative force).", "quantifier": "all pairs of real-valued arguments ordered as stated, every routine that solves the dispersion relation, all geometry with the toe below h + 5 Hs times the bottom slope", "why_tests_cant": "The forces depend on a dozen arguments through minima, cut-offs and hyperbolic functions of a wave number; the second coefficient of Goda alone falls with the wave height, and only its product with it does not. Tests compare single values and never pairs of neighbouring calls.", "anchors": ["deltares_coastal_structures_toolbox/functions/structural/forces_caisson/goda1985.py", "deltares_coastal_structures_toolbox/functions/structural/forces_crestwall/vangentvanderwerf2019.py", "deltares_coastal_structures_toolbox/functions/hydraulic/wave_runup/vangent2001.py"]}
{"id": "C80", "title": "Larger waves run up higher, cross the crest faster and are transmitted more, and where they are not", "statement": "Run-up of TAW (2002) and EurOtop (2018) on a single slope: without a berm it grows strictly with the wave height for a roughness factor above 0.18 and an Iribarren number of at least 0.4; it does not fall, and grows, with the period, the steepness of the slope and the obliqueness turning towards the normal (until 80 degrees), and does not fall with the factors for berm and roughness, while the berm factor times the Iribarren number is at most 10. The velocity of Van Gent (2002) at the crest does not fall when run-up, wave height, smoothness of the crest or gravity increase or freeboard, crest width or smoothness of the slope decrease, and grows wherever water passes the crest. Transmission: d'Angremond et al. and Briganti et al. do not fall, and grow between the cut-offs, with period, steepness of the slope, lower and narrower crests; d'Angremond et al. with the wave height too for a crest at or above water and an Iribarren number of at least 2; Goda et al. grows with the wave height over a crest above water, up to the limiting freeboard, and falls over one below; Van Gent et al. (2023) likewise for all freeboards, and grows with period and narrower crests. Set-up of Van Gent (2024): for impermeable structures it grows with the wave height H as long as the freeboard is at most 16/15 H and falls when it is at least 16/15 H; for permeable ones it always grows; both fall with the period. Refuted: on a rough slope with a berm factor of 0.6 a higher wave can run up less high; longer waves can run up less high past an Iribarren number of 10; a higher wave can be transmitted less in d'Angremond et al. for a crest at the water line.", "quantifier": "all pairs of real-valued arguments ordered as stated, all coefficients; every routine that solves the dispersion relation", "why_tests_cant": "That the order of two results never turns around is a statement about all pairs of calls; the places where it does are isolated switches and turning points that sampled reference values do not show.", "anchors": ["deltares_coastal_structures_toolbox/functions/hydraulic/wave_runup/taw2002.py", "deltares_coastal_structures_toolbox/functions/hydraulic/wave_runup/eurotop2018.py", "deltares_coastal_structures_toolbox/functions/hydraulic/wave_overtopping/vangent2002_velocity.py", "deltares_coastal_structures_toolbox/functions/hydraulic/wave_transmission/dangremond1996.py", "deltares_coastal_structures_toolbox/functions/hydraulic/wave_transmission/briganti2003.py", "deltares_coastal_structures_toolbox/functions/hydraulic/wave_transmission/goda1967_caisson.py", "deltares_coastal_structures_toolbox/functions/hydraulic/wave_transmission/vangent2023.py", "deltares_coastal_structures_toolbox/functions/hydraulic/wave_transmission/vangent2024_setup.py"]}
{"id": "C81", "title": "The width that makes a Goda caisson safe, and the caissons no width makes safe", "statement": "In one sea and for one cross section the horizontal force, its moment and the uplift pressure reported do not depend on the width of the caisson. Let w be the weight, in water below the still water level, of a metre of width, pu the uplift pressure, mu the friction and f the fraction of the width at which the weight acts. If w exceeds pu/2 the factor against sliding reaches s exactly from the width s FH / (mu (w - pu/2)) on; if f w exceeds pu/3 the factor against overturning reaches s exactly from the width sqrt(s MH / (f w - pu/3)) on; otherwise the factor is not positive at any width. With the default fill, friction and centre of gravity (2400 and 2100 kg/m3, 0.6, 0.5): above w = 2/3 pu there is one smallest safe width, the larger of the two; between pu/2 and 2/3 pu some widths do not slide but every width overturns; below, no width is held by its weight. A weight of at least 3/4 rho g HD per metre is always enough; a weight of at most 0.15 (1 - h'/h) rho g HD never is.", "quantifier": "all real-valued seas, depths, toe and caisson heights, densities, frictions, safety factors and widths, every routine that solves the dispersion relation", "why_tests_cant": "Equivalence between a safety factor and a width threshold, and impossibility at every width, are statements about all widths at once; tests evaluate single caissons.", "anchors": ["deltares_coastal_structures_toolbox/functions/structural/forces_caisson/goda1985.py"]}
{"id": "C82", "title": "A call binds its arguments as Python does, and what is left out takes the documented value, with one exception", "statement": "For all 260 functions: a call with positional and keyword arguments either is refused or gives every parameter its positional argument, else its keyword, else its default; positional and keyword passing of the next parameter are the same call, the order of keywords has no effect, and a call without a required argument is refused. Leaving out an argument whose default is documented is the same call as passing the documented value, for every documented default but one. Refuted for that one: the overtopping factor for oblique waves of EurOtop (2018) documents 0.0022 and uses 0.0033, which gives 0.901 instead of 0.934 at 30 degrees. 32 defaults are not documented. Functions of one file that share an optional parameter share its default, except the coefficients that tell apart the run-up levels of Van Gent (2001), permeable and impermeable structures of d'Angremond et al., horizontal and vertical forces on crest walls, and start of damage and failure of cubes. The defaults used in the other properties are those of the signatures. The documentation lists the parameters in the order of the signatures. 14 documented names are no parameters (gravity in the toe berm formulas of Gerding and Van der Meer, among others): a call that uses them is refused.", "quantifier": "all functions of the toolbox, all calls with any number of positional and keyword arguments, all values", "why_tests_cant": "Quantifies over every call shape of every function and compares it with the documentation; tests call functions with the arguments written out and never read the documented defaults.", "anchors": ["deltares_coastal_structures_toolbox/functions/core_physics.py", "deltares_coastal_structures_toolbox/functions/core_utility.py", "deltares_coastal_structures_toolbox/functions/hydraulic/wave_overtopping/eurotop2018.py", "deltares_coastal_structures_toolbox/functions/hydraulic/wave_runup/vangent2001.py", "deltares_coastal_structures_toolbox/functions/structural/forces_caisson/goda1985.py", "deltares_coastal_structures_toolbox/functions/structural/stability_rock_armour/vandermeer1988.py"]}
{"id": "C83", "title": "A missing number does not turn into a number, with four exceptions", "statement": "A call with NaN for one of its required numbers returns NaN or raises, whatever the other arguments are: stability numbers and stone sizes, run-up, set-up, transmission, overtopping discharge and freeboard, forces on crest walls, safety factors of caissons, concrete units, rock armour, rear side and toe berms, also where the answer is found by a search. Refuted for: Goda (1967), where a missing freeboard or wave height gives a transmission of 0.03; the correction factors of Xbloc and XblocPlus, where a missing quantity gives the factor 1 and a unit of half the volume that may be due; the rubble mound formulas of EurOtop (2007 and 2018), which without slope or period give the discharge of the unadjusted roughness factor.", "quantifier": "all values of all arguments (finite, infinite, NaN) with one of the listed ones NaN, all flags, all iteration limits and tolerances (at least one step where a search is limited)", "why_tests_cant": "NaN in every position of some 120 functions with every combination of the other arguments and branches; the tests do not pass NaN at all.", "anchors": ["deltares_coastal_structures_toolbox/functions/core_physics.py", "deltares_coastal_structures_toolbox/functions/hydraulic/wave_transmission/goda1967_caisson.py", "deltares_coastal_structures_toolbox/functions/hydraulic/wave_overtopping/eurotop2007.py", "deltares_coastal_structures_toolbox/functions/hydraulic/wave_overtopping/taw2002.py", "deltares_coastal_structures_toolbox/functions/structural/stability_concrete_armour/xbloc.py", "deltares_coastal_structures_toolbox/functions/structural/stability_rock_armour/vandermeer1988.py", "deltares_coastal_structures_toolbox/functions/structural/forces_caisson/goda1985.py"]}
{"id": "C84", "title": "Positive arguments give a positive number, with the exceptions listed", "statement": "For more than 120 formula functions: when the dimensions, densities, wave heights, periods and coefficients are positive (stone denser than water), the call returns and its answer is a number; it is a positive number for wave steepness and surf similarity, stability numbers, all Hudson, Xbloc, cube, modified Van der Meer (1988 and 2021) sizes and wave heights, Van der Meer (1988) damage, diameter and wave height for any storm length, run-up levels of Van Gent (2001), set-up, transmission coefficients for any freeboard, De Ridder discharges for any freeboard, low-crested Kramer wave heights for any freeboard, toe damage and diameter of Van Gent and Van der Werf. The exceptions are exact: cube damage (Van der Meer 1988) is a number only where Ns*s0m^0.1 >= 1 and otherwise NaN instead of 0; Etemad-Shahidi (2021) toe damage is a number only where Ns >= 1.2 on foreshores gentler than 1 in 3.7, and only where Ns <= 1.2 on steeper ones; Gerding diameters and toe depths and Scaravaglione diameters are numbers of either sign with the stated threshold, so positive arguments can give a negative diameter.", "quantifier": "for all real arguments with the stated signs, both values of every flag and every label of the tables", "why_tests_cant": "Tests use realistic inputs; that no positive input gives NaN, an infinity, an exception or a negative size is a statement about all inputs, and the thresholds where it fails lie on hypersurfaces a finite sample does not hit.", "anchors": ["deltares_coastal_structures_toolbox/functions/core_physics.py::calculate_stability_number_Ns", "deltares_coastal_structures_toolbox/functions/structural/stability_rock_armour/vandermeer1988.py::calculate_damage_number_S", "deltares_coastal_structures_toolbox/functions/structural/stability_rock_armour/kramerburcharth2004_lowcrested.py::calculate_significant_wave_height_Hs", "deltares_coastal_structures_toolbox/functions/structural/stability_rock_armour/scaravaglione2025.py::calculate_nominal_rock_diameter_Dn50", "deltares_coastal_structures_toolbox/functions/structural/stability_toe_berm/gerding1993.py::calculate_nominal_diameter_Dn50", "deltares_coastal_structures_toolbox/functions/structural/stability_toe_berm/etemadshahidi2021.py::calculate_damage_Nod", "deltares_coastal_structures_toolbox/functions/structural/stability_toe_berm/vangentvanderwerf2014.py::calculate_damage_Nod", "deltares_coastal_structures_toolbox/functions/structural/stability_concrete_armour/cubes_double_layer_vandermeer1988.py::calculate_damage_Nod_vanDerMeer1988", "deltares_coastal_structures_toolbox/functions/hydraulic/wave_runup/vangent2001.py::calculate_wave_runup_height_zXp"]}
{"id": "C85", "title": "What each formula answers in still water", "statement": "With every wave height equal to 0 (a numpy float) and the other dimensions positive, the answer of each function is known exactly: 0 for wave steepness, stability number, the Hudson, Xbloc and cube sizes and masses, the damage and diameters of Van der Meer (1998), Gerding toe damage, the run-up levels of Van Gent (2001), the De Ridder discharges for any freeboard, the dimensionless EurOtop (2007) rubble-mound discharge and the horizontal load on a crest wall; infinity for the surf-similarity parameter and for the Etemad-Shahidi (2021) toe damage; NaN, not 0, for damage and stone size of Van der Meer (1988), its modified and 2021 forms, Etemad-Shahidi (2020) damage, Scaravaglione, Jumelet, Van Gent and Pozueta, Van Gent and Van der Werf, cube damage, and for discharge, freeboard and set-up of Van Gent (2024, 2025). D'Angremond returns its lower bound 0.075 behind an emerged and its upper bound 0.8 behind a submerged structure (Briganti: 0.05 for both) and NaN at the water line; Van Gent (2023) c5 - c1, c5 + c1 and NaN. Gerding gives the negative diameter -0.15*ht; the vertical crest-wall load is 0 exactly as long as the base of the wall is not above the armour crest and positive otherwise; Van Gent (2007) rear-side damage is 0 with a front crest width and NaN without. So 'no waves, no load and no damage' is refuted.", "quantifier": "for all positive reals for the remaining dimensions, all reals where a freeboard or angle may have either sign, both values of every flag", "why_tests_cant": "Zero wave height is a boundary of every formula where 0/0 and negative powers appear; which of 0, infinity, NaN or a finite limit comes out depends on the order of the operations and on branch comparisons with NaN for all structures, which sampled tests with positive waves never enter.", "anchors": ["deltares_coastal_structures_toolbox/functions/core_physics.py::calculate_Iribarren_number_ksi", "deltares_coastal_structures_toolbox/functions/structural/stability_rock_armour/vandermeer1988.py::calculate_damage_number_S", "deltares_coastal_structures_toolbox/functions/structural/stability_toe_berm/gerding1993.py::calculate_nominal_diameter_Dn50", "deltares_coastal_structures_toolbox/functions/structural/stability_toe_berm/etemadshahidi2021.py::calculate_damage_Nod", "deltares_coastal_structures_toolbox/functions/hydraulic/wave_transmission/dangremond1996.py::calculate_wave_transmission_Kt_permeable", "deltares_coastal_structures_toolbox/functions/hydraulic/wave_transmission/briganti2003.py::calculate_wave_transmission_Kt", "deltares_coastal_structures_toolbox/functions/hydraulic/wave_overtopping/vangent2025.py::calculate_overtopping_discharge_q", "deltares_coastal_structures_toolbox/functions/hydraulic/wave_overtopping/deridder2024.py::calculate_overtopping_discharge_q_eq24"]}
{"id": "C86", "title": "What the limit and the tolerance of an iterative search mean, and when its warning is a false alarm", "statement": "The searches with a limit on the number of steps and a tolerance (Kramer and Burcharth diameter and freeboard, Jumelet wave height, Etemad-Shahidi 2020 diameter, Van Gent 2007 and Van Gent and Pozueta 2004 wave heights, Van Gent 2025 freeboard with wind, average slope of TAW 2002 and EurOtop 2018) answer with the result of the first step that differs from the one before by no more than the tolerance, or else of the last step the limit allows (for the average slope one step more than max_iter). So when one step more does not change the answer no number of steps does, and a coarser tolerance gives an answer that the finer one gives with a lower limit. All but the two rear-side formulas issue the same warnings whether they settled or were cut off: the caller is not told. The rear-side formulas warn exactly when as many steps were made as allowed; refuted: the warning means that the search has not settled (wherever some limit does not warn, a lower one warns and gives the same answer as all higher ones). With a tolerance of zero the average slope procedures return their start 1.5 Hm0 without a step.", "quantifier": "all arguments (finite, infinite, NaN), all finite tolerances, all limits of at least one step; rear-side searches with a finite start and given stones; the average slope with a finite wave height and a tolerance other than zero", "why_tests_cant": "A test sees a few limits and tolerances; whether an answer was settled or cut off cannot be seen from one call.", "anchors": ["deltares_coastal_structures_toolbox/functions/structural/stability_rock_armour/kramerburcharth2004_lowcrested.py", "deltares_coastal_structures_toolbox/functions/structural/stability_rock_armour/jumelet2024.py", "deltares_coastal_structures_toolbox/functions/structural/stability_rock_armour/etemadshahidi2020.py", "deltares_coastal_structures_toolbox/functions/structural/stability_rock_rear/vangent2007.py", "deltares_coastal_structures_toolbox/functions/structural/stability_rock_rear/vangentpozueta2004.py", "deltares_coastal_structures_toolbox/functions/hydraulic/wave_overtopping/vangent2025.py", "deltares_coastal_structures_toolbox/functions/hydraulic/wave_runup/taw2002.py", "deltares_coastal_structures_toolbox/functions/hydraulic/wave_runup/eurotop2018.py"]}
{"id": "C87", "title": "Where a small change of an argument changes the answer little, and where the answer makes a step", "statement": "Steady, that is with answers as near as one likes for arguments near enough: the TAW 2002 oblique-wave factors (one degree changes them by at most 0.0022 for run-up, 0.0033 for overtopping), the TAW 2002 berm factor as a function of the berm level (also at still water, at the run-up level and two wave heights below still water) and the Goda heel pressure as a function of the overturning moment (also where the base starts to lift; not where the resultant is at the heel). Steps: the TAW crest wall factor drops from 1 to 0.999 past 45 degrees and nowhere else; the adjusted roughness factor drops back to gamma_f past a breaker parameter of 10/gamma_b, and with a berm also jumps at 1.8/gamma_b, and nowhere else; the TAW run-up drops there with it, so that slightly longer waves run up less, by the ratio of the two roughness factors; the Van der Meer 1988 damage as a function of the number of waves jumps up past 5000 waves by the factor 1.3(1-exp(-1.55)) > 1 and nowhere else; the Van der Meer 1988 and modified diameter as a function of the slope is steady, also where plunging turns into surging, except that on 1:4 slopes it jumps up by the factor (ksi/ksi_mc)^(P+0.5) if waves still surge there.", "quantifier": "all finite angles and berm levels; positive wave height, run-up and non-zero berm length; Goda with uplift below the weight, positive width and a resultant not at the heel; gamma_f in (0,1), gamma_b in [0.6,1]; run-up with a given oblique-wave factor, no berm computed, and the default coefficients; Van der Meer with positive arguments, rock denser than water", "why_tests_cant": "Continuity is a statement about all arguments near a point; a test compares two points and sees a small or a large difference for either.", "anchors": ["deltares_coastal_structures_toolbox/functions/hydraulic/wave_runup/taw2002.py", "deltares_coastal_structures_toolbox/functions/hydraulic/wave_overtopping/taw2002.py", "deltares_coastal_structures_toolbox/functions/structural/forces_caisson/goda1985.py", "deltares_coastal_structures_toolbox/functions/structural/stability_rock_armour/vandermeer1988.py", "deltares_coastal_structures_toolbox/functions/structural/stability_rock_armour/vandermeer1988_modified.py"]}
{"id": "C88", "title": "What the answers come to for ever higher crests, longer storms and longer waves", "statement": "For ever higher crests the overtopping discharge comes to 0 (from some crest level on it is below any positive discharge) with TAW 2002 (design and mean), EurOtop 2007, EurOtop 2018 (rubble mounds), De Ridder 2024 (equations 24 and 26), Van Gent 2025 (without design) and Van Gent 2021 (caissons, in every combination of short-crested, crossing and parapet). The Van Gent 2023 transmission coefficient does not: it comes to a positive number that depends on the type of structure only (0.03 impermeable, 0.07 permeable, 0.69 perforated, 0.10 and 0.59 with screens), and for ever deeper crests to 0.97, 0.93, 0.95, 0.90 and 0.93. For ever longer storms the Van der Meer 1988 damage comes to 1.3 times the damage of 5000 waves, while the damage of the modified formula passes all bounds. For ever longer waves the TAW 2002 run-up comes to 4.3 gamma_f gamma_beta times the wave height. An answer comes to at most one number, and not while passing all bounds.", "quantifier": "all positive wave heights, periods, slopes, gravities and reduction factors (gamma_f and gamma_b at most 1 for TAW and EurOtop; gamma_f below 1 and gamma_b in [0.6,1] for the run-up); given oblique-wave factors, for EurOtop also computed ones; EurOtop 2018 on one or two slopes; any low-frequency and swell wave height; Van der Meer with rock denser than water; transmission with any solver of the dispersion relation", "why_tests_cant": "A limit is a statement about all arguments beyond some point; a test evaluates one argument, and cannot tell levelling off from slow growth.", "anchors": ["deltares_coastal_structures_toolbox/functions/hydraulic/wave_overtopping/taw2002.py", "deltares_coastal_structures_toolbox/functions/hydraulic/wave_overtopping/eurotop2007.py", "deltares_coastal_structures_toolbox/functions/hydraulic/wave_overtopping/eurotop2018.py", "deltares_coastal_structures_toolbox/functions/hydraulic/wave_overtopping/deridder2024.py", "deltares_coastal_structures_toolbox/functions/hydraulic/wave_overtopping/vangent2025.py", "deltares_coastal_structures_toolbox/functions/hydraulic/wave_overtopping/vangent2021_caisson.py", "deltares_coastal_structures_toolbox/functions/hydraulic/wave_transmission/vangent2023.py", "deltares_coastal_structures_toolbox/functions/hydraulic/wave_runup/taw2002.py", "deltares_coastal_structures_toolbox/functions/structural/stability_rock_armour/vandermeer1988.py", "deltares_coastal_structures_toolbox/functions/structural/stability_rock_armour/vandermeer1988_modified.py"]}
