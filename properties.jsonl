{"id": "C01", "title": "Moduli/velocity round trip", "statement": "A Material built from density and moduli reports velocities such that a Material rebuilt from density and those velocities has exactly the same moduli, and vice versa; so no elastic information is lost when the batch code rebuilds a material from density and velocities only.", "quantifier": "every density > 0 and every pair of moduli (or velocities) the constructor accepts", "why_tests_cant": "The claim is about a continuum of real inputs; tests sample a handful of numbers (or random floats) and can miss any region where the algebra fails.", "anchors": ["src/open_petro_elastic/material/material.py: Material.__init__, Material.set_defaults, vectorize_material", "src/open_petro_elastic/material/seismic_velocity.py: calculate_*"]}
{"id": "C02", "title": "Accepted materials are physically admissible", "statement": "Whatever combination of arguments is passed, if Material(...) returns, then density, both moduli and both velocities are non-negative, and primary velocity is at least sqrt(4/3) times secondary velocity.", "quantifier": "every combination of present/absent arguments and every real value of them", "why_tests_cant": "Five optional real arguments give 32 shapes times a continuum of values.", "anchors": ["src/open_petro_elastic/material/material.py: Material.__init__"]}
{"id": "C03", "title": "Constructor acceptance criterion", "statement": "With density > 0: moduli are accepted if and only if both are non-negative; velocities are accepted if and only if both are non-negative and vp >= sqrt(4/3)*vs. Negative density is always a ValueError, and so is leaving out data needed to derive a property.", "quantifier": "every real density, pair of moduli and pair of velocities", "why_tests_cant": "An iff over reals: tests show single accepted/rejected points, never that nothing else is rejected.", "anchors": ["src/open_petro_elastic/material/material.py: Material.__init__, Material.set_defaults"]}
{"id": "C04", "title": "Config materials obey the same admissibility as Material", "statement": "A material read from the configuration file (type 'material') satisfies the same invariants as a Material: negative density, moduli or velocities are rejected.", "quantifier": "every configured material", "why_tests_cant": "Needs a universal statement over configured values.", "anchors": ["src/open_petro_elastic/config/material_type.py: ArbitraryMaterial.__post_init_post_parse__"]}
{"id": "C05", "title": "Poisson ratio and wave modulus are consistent with velocities", "statement": "For every accepted material built from moduli, Poisson's ratio lies in [-1, 1/2], is exactly 1/2 for a fluid, and acoustic impedance squared equals density times the primary wave modulus (likewise shear impedance squared = density times shear modulus).", "quantifier": "every accepted material with K+mu > 0", "why_tests_cant": "The claim is about a continuum of real inputs; tests sample a handful of numbers (or random floats) and can miss any region where the algebra fails.", "anchors": ["src/open_petro_elastic/material/material.py: poisson_ratio, primary_wave_modulus, acoustic_impedance, shear_impedance"]}
{"id": "C06", "title": "Wood mixture lies between its constituents", "statement": "The bulk modulus and density of a Wood mixture lie between the smallest and largest among the constituents.", "quantifier": "every non-empty list of fluids with positive bulk moduli and every list of non-negative saturations of the same length (including all-zero ones it normalises)", "why_tests_cant": "Lists of arbitrary length with real entries.", "anchors": ["src/open_petro_elastic/material/fluid.py: wood_fluid_mixing, mix_bulk_moduli, mix_densities, sum_saturations_to_one"]}
{"id": "C07", "title": "Wood mixing ignores order and scale", "statement": "Permuting the constituents (together with their saturations) or multiplying all saturations by a common positive factor does not change the Wood mixture, as long as the total stays above the 1e-15 floor.", "quantifier": "every list of fluids/saturations, every permutation, every scale factor", "why_tests_cant": "All permutations of all lengths.", "anchors": ["src/open_petro_elastic/material/fluid.py: wood_fluid_mixing, sum_saturations_to_one"]}
{"id": "C08", "title": "Wood mixing is mass conserving and exact for pure fluids", "statement": "Mixture density is sum(s*rho)/sum(s), mixture compliance is sum(s/K)/sum(s), and a constituent with zero saturation can be dropped without changing the result; a single constituent is returned unchanged.", "quantifier": "every list of fluids and saturations with total at least 1e-15", "why_tests_cant": "Arbitrary lengths and values.", "anchors": ["src/open_petro_elastic/material/fluid.py: mix_densities, mix_bulk_moduli, wood_fluid_mixing"]}
{"id": "C09", "title": "Saturations are normalised to sum to one", "statement": "The normalised saturations used for mixing sum to exactly one.", "quantifier": "every non-empty list of saturations", "why_tests_cant": "Universal over lists; the 1e-15 floor creates corner regions tests do not hit.", "anchors": ["src/open_petro_elastic/material/fluid.py: sum_saturations_to_one"]}
{"id": "C10", "title": "Wood mixing rejects mismatched lengths", "statement": "wood_fluid_mixing refuses a fluid list and a saturation list of different lengths (as brie_fluid_mixing does).", "quantifier": "every pair of lists", "why_tests_cant": "Universal over shapes.", "anchors": ["src/open_petro_elastic/material/fluid.py: mix_densities, mix_bulk_moduli (zip)"]}
{"id": "C11", "title": "Brie mixture lies between gas and liquid and grows with liquid saturation", "statement": "With gas softer than liquid, total liquid saturation in [0,1] and exponent > 0, the Brie bulk modulus lies between the Wood gas and the Wood liquid moduli, equals gas at 0 and liquid at 1, and is non-decreasing in the liquid saturation.", "quantifier": "every gas, liquid, saturation and exponent", "why_tests_cant": "The claim is about a continuum of real inputs; tests sample a handful of numbers (or random floats) and can miss any region where the algebra fails.", "anchors": ["src/open_petro_elastic/material/fluid.py: brie_fluid_mixing"]}
{"id": "C12", "title": "Brie rejects exactly the malformed inputs and degenerates to Wood", "statement": "brie_fluid_mixing raises ValueError for mismatched lengths and for zero constituents; with only liquids (only gases) it is Wood mixing of them.", "quantifier": "every four lists", "why_tests_cant": "Universal over shapes.", "anchors": ["src/open_petro_elastic/material/fluid.py: brie_fluid_mixing"]}
{"id": "C13", "title": "Brie mixing conserves mass", "statement": "When all saturations sum to one, Brie density is the saturation-weighted sum of constituent densities.", "quantifier": "every list of liquids and gases", "why_tests_cant": "The claim is about a continuum of real inputs; tests sample a handful of numbers (or random floats) and can miss any region where the algebra fails.", "anchors": ["src/open_petro_elastic/material/fluid.py: brie_fluid_mixing"]}
{"id": "C14", "title": "Brie weights the gas by its own saturation", "statement": "The result of brie_fluid_mixing depends on total gas saturation as given, i.e. scaling all saturations by a common factor leaves the mixture unchanged as it does for Wood.", "quantifier": "every list of liquids and gases and scale factor", "why_tests_cant": "The claim is about a continuum of real inputs; tests sample a handful of numbers (or random floats) and can miss any region where the algebra fails.", "anchors": ["src/open_petro_elastic/material/fluid.py: brie_fluid_mixing"]}
{"id": "C15", "title": "Fluid substitution solves Gassmann's equation", "statement": "The returned saturated bulk modulus ks satisfies ks/(kmin-ks) = kdry/(kmin-kdry) + kf/(phi*(kmin-kf)).", "quantifier": "every kdry, kf in [0,kmin), phi > 0", "why_tests_cant": "The claim is about a continuum of real inputs; tests sample a handful of numbers (or random floats) and can miss any region where the algebra fails.", "anchors": ["src/open_petro_elastic/material/fluid.py: fluid_substitution, gassman_equation"]}
{"id": "C16", "title": "Saturated rock is between dry rock and mineral", "statement": "For kdry, kf in [0, kmin) and phi > 0, substitution succeeds and kdry <= ks < kmin; ks = kdry exactly when kf = 0.", "quantifier": "every such moduli and porosity", "why_tests_cant": "The claim is about a continuum of real inputs; tests sample a handful of numbers (or random floats) and can miss any region where the algebra fails.", "anchors": ["src/open_petro_elastic/material/fluid.py: gassman_equation"]}
{"id": "C17", "title": "Stiffer fluid gives stiffer rock", "statement": "Saturated bulk modulus is strictly increasing in the fluid bulk modulus and in the dry bulk modulus, and non-increasing in porosity.", "quantifier": "all ordered pairs of admissible inputs", "why_tests_cant": "The claim is about a continuum of real inputs; tests sample a handful of numbers (or random floats) and can miss any region where the algebra fails.", "anchors": ["src/open_petro_elastic/material/fluid.py: gassman_equation"]}
{"id": "C18", "title": "Non-porous and mineral-like rock ignore the fluid", "statement": "At zero porosity, or when the dry rock has the mineral's modulus, the saturated bulk modulus is the mineral's for every fluid.", "quantifier": "every fluid, mineral, dry rock", "why_tests_cant": "The claim is about a continuum of real inputs; tests sample a handful of numbers (or random floats) and can miss any region where the algebra fails.", "anchors": ["src/open_petro_elastic/material/fluid.py: gassman_equation"]}
{"id": "C19", "title": "Substitution leaves shear unchanged and adds pore-fluid mass", "statement": "When fluid_substitution succeeds, shear modulus equals that of the dry rock, density equals dry density + porosity*fluid density, and the Material invariants hold.", "quantifier": "every successful call", "why_tests_cant": "The claim is about a continuum of real inputs; tests sample a handful of numbers (or random floats) and can miss any region where the algebra fails.", "anchors": ["src/open_petro_elastic/material/fluid.py: fluid_substitution"]}
{"id": "C20", "title": "Exact rejection set of fluid substitution", "statement": "For porosity != 0 and kdry != kmin: the result is ZeroDivisionError iff kf = kmin, ValueError iff the difference factor is negative, and otherwise success (given valid shear and density); negative-porosity and too-stiff-fluid inputs are characterised.", "quantifier": "every real input", "why_tests_cant": "iff over reals.", "anchors": ["src/open_petro_elastic/material/fluid.py: gassman_equation"]}
{"id": "C21", "title": "Fluid substitution is invertible", "statement": "Different fluids give different saturated moduli: from the saturated modulus, mineral, dry rock and porosity the fluid modulus is uniquely determined, so substituting fluid A then recovering the dry rock and substituting B equals substituting B directly.", "quantifier": "every admissible rock and pair of fluids", "why_tests_cant": "The claim is about a continuum of real inputs; tests sample a handful of numbers (or random floats) and can miss any region where the algebra fails.", "anchors": ["src/open_petro_elastic/material/fluid.py: gassman_equation"]}
{"id": "C22", "title": "Volume ratio check", "statement": "The Hashin-Shtrikman functions raise ValueError if the ratio is outside [-1e-5, 1+1e-5], and never for that reason inside it.", "quantifier": "every real ratio", "why_tests_cant": "iff over reals.", "anchors": ["src/open_petro_elastic/material/hashin_shtrikman.py: check_is_ratio"]}
{"id": "C23", "title": "Walpole mixture lies between its constituents", "statement": "For ratio in [0,1] both bounds give bulk and shear moduli and density between those of the two constituents.", "quantifier": "every two admissible materials (some stiffness positive) and ratio in [0,1]", "why_tests_cant": "The claim is about a continuum of real inputs; tests sample a handful of numbers (or random floats) and can miss any region where the algebra fails.", "anchors": ["src/open_petro_elastic/material/hashin_shtrikman.py: hashin_shtrikman_walpole"]}
{"id": "C24", "title": "Lower bound does not exceed upper bound", "statement": "The 'lower' Walpole mixture is never stiffer (bulk or shear) than the 'upper' one.", "quantifier": "every two materials and ratio in [0,1]", "why_tests_cant": "The claim is about a continuum of real inputs; tests sample a handful of numbers (or random floats) and can miss any region where the algebra fails.", "anchors": ["src/open_petro_elastic/material/hashin_shtrikman.py: hashin_shtrikman_walpole"]}
{"id": "C25", "title": "Walpole mixture at the endpoints", "statement": "With ratio 1 the mixture is material1 and with ratio 0 it is material2, exactly, in all five properties.", "quantifier": "every two materials and either bound", "why_tests_cant": "The claim is about a continuum of real inputs; tests sample a handful of numbers (or random floats) and can miss any region where the algebra fails.", "anchors": ["src/open_petro_elastic/material/hashin_shtrikman.py: hashin_shtrikman_walpole"]}
{"id": "C26", "title": "Walpole mixing is symmetric", "statement": "Swapping the two materials while replacing ratio by 1-ratio gives the same result.", "quantifier": "every two materials, ratio, bound", "why_tests_cant": "The claim is about a continuum of real inputs; tests sample a handful of numbers (or random floats) and can miss any region where the algebra fails.", "anchors": ["src/open_petro_elastic/material/hashin_shtrikman.py: hashin_shtrikman_walpole"]}
{"id": "C27", "title": "Mixing a material with itself", "statement": "Mixing two materials with equal density and moduli gives that material for every allowed ratio.", "quantifier": "every material and ratio", "why_tests_cant": "The claim is about a continuum of real inputs; tests sample a handful of numbers (or random floats) and can miss any region where the algebra fails.", "anchors": ["src/open_petro_elastic/material/hashin_shtrikman.py: hashin_shtrikman_walpole"]}
{"id": "C28", "title": "Walpole bounds refine to the classical bound", "statement": "When material1 is softer in both moduli, hashin_shtrikman_bound equals the 'lower' Walpole bound; when stiffer in both, the 'upper'.", "quantifier": "every two ordered materials with positive shear", "why_tests_cant": "The claim is about a continuum of real inputs; tests sample a handful of numbers (or random floats) and can miss any region where the algebra fails.", "anchors": ["src/open_petro_elastic/material/hashin_shtrikman.py: hashin_shtrikman_bound, hashin_shtrikman_walpole"]}
{"id": "C29", "title": "Hashin-Shtrikman average is symmetric and between the bounds", "statement": "hashin_shtrikman_average(m1,m2,f) = hashin_shtrikman_average(m2,m1,1-f), and its moduli lie between those of the constituents.", "quantifier": "every two materials with positive shear and ratio in [0,1]", "why_tests_cant": "The claim is about a continuum of real inputs; tests sample a handful of numbers (or random floats) and can miss any region where the algebra fails.", "anchors": ["src/open_petro_elastic/material/hashin_shtrikman.py: hashin_shtrikman_average"]}
{"id": "C30", "title": "Bounds respect Reuss and Voigt", "statement": "The lower Walpole bulk modulus is at least the Reuss (harmonic) average and the upper at most the Voigt (arithmetic) average; same for shear.", "quantifier": "every two materials with positive moduli and ratio in [0,1]", "why_tests_cant": "The claim is about a continuum of real inputs; tests sample a handful of numbers (or random floats) and can miss any region where the algebra fails.", "anchors": ["src/open_petro_elastic/material/hashin_shtrikman.py: hashin_shtrikman_walpole"]}
{"id": "C31", "title": "Adding more of the stiffer constituent never softens the mixture", "statement": "For material1 stiffer in both moduli the Walpole bulk and shear moduli are non-decreasing in ratio.", "quantifier": "every two ordered materials, every two ratios in [0,1]", "why_tests_cant": "The claim is about a continuum of real inputs; tests sample a handful of numbers (or random floats) and can miss any region where the algebra fails.", "anchors": ["src/open_petro_elastic/material/hashin_shtrikman.py: hashin_shtrikman_walpole"]}
{"id": "C32", "title": "Fraction completion", "statement": "When exactly one fraction is left out it becomes one minus the sum of the rest so that fractions sum to exactly one, all other fractions unchanged; two or more missing fractions, or a sum above 1+1e-5, is a ValueError; with none missing nothing changes.", "quantifier": "every list of optional fractions", "why_tests_cant": "Lists of arbitrary length.", "anchors": ["src/open_petro_elastic/config/constituent.py: fix_one_fraction"]}
{"id": "C33", "title": "Mineral mixture density is the volume-weighted average", "statement": "For any number of minerals with fractions summing to a positive total, mixture density is sum(f*rho)/sum(f).", "quantifier": "every list of minerals and non-negative fractions", "why_tests_cant": "Induction over list length; tests use two or three minerals.", "anchors": ["src/open_petro_elastic/config/minerals.py: Minerals.as_mixture"]}
{"id": "C34", "title": "Mineral mixture moduli stay within the constituents' range", "statement": "The bulk and shear moduli of the mixture lie between the smallest and largest among constituents.", "quantifier": "every list of minerals and non-negative fractions", "why_tests_cant": "Induction over list length.", "anchors": ["src/open_petro_elastic/config/minerals.py: Minerals.as_mixture"]}
{"id": "C35", "title": "A mineral with zero fraction has no effect", "statement": "Appending (or having first) a mineral with fraction zero does not change the mixture.", "quantifier": "every mineral list with positive total", "why_tests_cant": "The claim is about a continuum of real inputs; tests sample a handful of numbers (or random floats) and can miss any region where the algebra fails.", "anchors": ["src/open_petro_elastic/config/minerals.py: Minerals.as_mixture"]}
{"id": "C36", "title": "Mineral order does not matter", "statement": "Permuting the minerals (with fractions) does not change the mixture.", "quantifier": "every list and permutation", "why_tests_cant": "All permutations.", "anchors": ["src/open_petro_elastic/config/minerals.py: Minerals.as_mixture"]}
{"id": "C37", "title": "Minerals are accepted exactly when fractions sum to one", "statement": "Minerals construction succeeds iff after completion the fractions sum to 1 within tolerance.", "quantifier": "every list of fractions", "why_tests_cant": "iff over lists of reals", "anchors": ["src/open_petro_elastic/config/minerals.py: Minerals.__post_init_post_parse__"]}
{"id": "C38", "title": "Hertz-Mindlin cube-root pressure law", "statement": "Multiplying pressure by lambda^3 multiplies both effective moduli by lambda; hence moduli are strictly increasing in pressure and vanish at zero pressure.", "quantifier": "every mineral with K>=0, mu>0, porosity<1, coordination>0, pressure>=0, lambda>0", "why_tests_cant": "The claim is about a continuum of real inputs; tests sample a handful of numbers (or random floats) and can miss any region where the algebra fails.", "anchors": ["src/open_petro_elastic/material/sandstone/hertz_mindlin.py: hertz_mindlin"]}
{"id": "C39", "title": "Hertz-Mindlin grain pack density and shear reduction", "statement": "Density is mineral density*(1-porosity); the bulk modulus does not depend on shear reduction, the shear modulus is increasing in it.", "quantifier": "every admissible input", "why_tests_cant": "The claim is about a continuum of real inputs; tests sample a handful of numbers (or random floats) and can miss any region where the algebra fails.", "anchors": ["src/open_petro_elastic/material/sandstone/hertz_mindlin.py: hertz_mindlin"]}
{"id": "C40", "title": "Friable sand end members and density", "statement": "At zero porosity friable sand is the mineral, at critical porosity it is the Hertz-Mindlin pack, and density is mineral density*(1-porosity) in between.", "quantifier": "every admissible mineral, porosity in [0,critical], pressure>=0", "why_tests_cant": "The claim is about a continuum of real inputs; tests sample a handful of numbers (or random floats) and can miss any region where the algebra fails.", "anchors": ["src/open_petro_elastic/material/sandstone/friable_sand.py: friable_sand"]}
{"id": "C41", "title": "Friable sand moduli lie between pack and mineral and grow with pressure", "statement": "Bulk and shear moduli lie between those of the Hertz-Mindlin pack and the mineral, and are non-decreasing in pressure while the pack is softer than the mineral.", "quantifier": "every admissible input", "why_tests_cant": "The claim is about a continuum of real inputs; tests sample a handful of numbers (or random floats) and can miss any region where the algebra fails.", "anchors": ["src/open_petro_elastic/material/sandstone/friable_sand.py: friable_sand"]}
{"id": "C42", "title": "Cement radius ratio is a ratio", "statement": "cement_radius_ratio returns a value in [0,1], 0 iff the porosities agree, non-increasing in cemented porosity; rejects exactly porosities outside [0,1] or cemented > grain.", "quantifier": "every pair of porosities", "why_tests_cant": "The claim is about a continuum of real inputs; tests sample a handful of numbers (or random floats) and can miss any region where the algebra fails.", "anchors": ["src/open_petro_elastic/material/sandstone/contact_cement.py: cement_radius_ratio"]}
{"id": "C43", "title": "Contact cement rejects exactly the impossible porosities", "statement": "contact_cement raises ValueError if either porosity is outside [0,1] or the cemented porosity exceeds sand porosity, before anything else is computed.", "quantifier": "every real pair of porosities", "why_tests_cant": "The claim is about a continuum of real inputs; tests sample a handful of numbers (or random floats) and can miss any region where the algebra fails.", "anchors": ["src/open_petro_elastic/material/sandstone/contact_cement.py: contact_cement"]}
{"id": "C44", "title": "Contact cement conserves mass", "statement": "Density of cemented sand equals (1-sand_porosity)*sand density + (sand_porosity-cemented_porosity)*cement density.", "quantifier": "every admissible input", "why_tests_cant": "The claim is about a continuum of real inputs; tests sample a handful of numbers (or random floats) and can miss any region where the algebra fails.", "anchors": ["src/open_petro_elastic/material/sandstone/contact_cement.py: contact_cement"]}
{"id": "C45", "title": "Constant cement end members", "statement": "At zero porosity constant cement is the dense packing; at contact-cement porosity it is the contact cement; in between moduli lie between the two.", "quantifier": "every admissible input", "why_tests_cant": "The claim is about a continuum of real inputs; tests sample a handful of numbers (or random floats) and can miss any region where the algebra fails.", "anchors": ["src/open_petro_elastic/material/sandstone/constant_cement.py: constant_cement"]}
{"id": "C46", "title": "Patchy cement stays between friable sand and the cemented upper bound", "statement": "Bulk and shear moduli of patchy cement lie between those of friable sand at the given pressure and the constant-cement upper bound, and coincide with the upper bound when cement fraction equals the upper bound's.", "quantifier": "every admissible input", "why_tests_cant": "The claim is about a continuum of real inputs; tests sample a handful of numbers (or random floats) and can miss any region where the algebra fails.", "anchors": ["src/open_petro_elastic/material/sandstone/patchy_cement.py: patchy_cement"]}
{"id": "C47", "title": "Patchy cement density", "statement": "Density is (1-porosity-cement_fraction)*sand + cement_fraction*cement for all inputs, so equal sand and cement densities give density*(1-porosity).", "quantifier": "every admissible input", "why_tests_cant": "The claim is about a continuum of real inputs; tests sample a handful of numbers (or random floats) and can miss any region where the algebra fails.", "anchors": ["src/open_petro_elastic/material/sandstone/patchy_cement.py: patchy_cement"]}
{"id": "C48", "title": "Coordination number fit is positive and decreasing", "statement": "murphy_coordination_number is positive for every porosity and strictly decreasing for porosities in [0, 0.84].", "quantifier": "every real porosity", "why_tests_cant": "The claim is about a continuum of real inputs; tests sample a handful of numbers (or random floats) and can miss any region where the algebra fails.", "anchors": ["src/open_petro_elastic/material/sandstone/murphy_coordination_number.py: murphy_coordination_number"]}
{"id": "C49", "title": "Effective pressure truncation", "statement": "Truncated effective pressure equals min(overburden - pore pressure, max_effective) when max_effective is given and overburden - pore pressure otherwise; it is non-increasing in pore pressure.", "quantifier": "every pressure", "why_tests_cant": "The claim is about a continuum of real inputs; tests sample a handful of numbers (or random floats) and can miss any region where the algebra fails.", "anchors": ["src/open_petro_elastic/config/pressure.py: Pressure.truncated_*"]}
{"id": "C50", "title": "At least one pore pressure is required", "statement": "A pressure section with neither fluid nor rock pore pressure is rejected.", "quantifier": "every pressure section", "why_tests_cant": "Universal over presence/absence of keys.", "anchors": ["src/open_petro_elastic/config/pressure.py: Pressure.at_least_one_pore_pressure"]}
{"id": "C51", "title": "Missing pore pressure defaults to the other", "statement": "If only one of rock/fluid pressure is given, the other takes the same value.", "quantifier": "every pressure section", "why_tests_cant": "The claim is about a continuum of real inputs; tests sample a handful of numbers (or random floats) and can miss any region where the algebra fails.", "anchors": ["src/open_petro_elastic/config/pressure.py: Pressure.__post_init_post_parse__"]}
{"id": "C52", "title": "Pressure dependency is the identity at reference", "statement": "For polyfit, expfit, logfit, friable sand and patchy cement pressure dependency, when effective pressure equals reference pressure the material is unchanged.", "quantifier": "every material, model, coefficients", "why_tests_cant": "The claim is about a continuum of real inputs; tests sample a handful of numbers (or random floats) and can miss any region where the algebra fails.", "anchors": ["src/open_petro_elastic/config/model.py: AbstractPressureDependencyModel.pressure_dependency"]}
{"id": "C53", "title": "Pressure dependency composes", "statement": "Adjusting from p0 to p1 and then from p1 to p2 equals adjusting from p0 to p2 directly.", "quantifier": "every model and three pressures", "why_tests_cant": "The claim is about a continuum of real inputs; tests sample a handful of numbers (or random floats) and can miss any region where the algebra fails.", "anchors": ["src/open_petro_elastic/config/model.py: AbstractPressureDependencyModel.pressure_dependency"]}
{"id": "C54", "title": "Pressure dependency rejects a vanishing reference fit", "statement": "A fit whose density, primary or secondary value at reference has magnitude <= 1e-20 is a ValueError, never a division by zero.", "quantifier": "every model", "why_tests_cant": "The claim is about a continuum of real inputs; tests sample a handful of numbers (or random floats) and can miss any region where the algebra fails.", "anchors": ["src/open_petro_elastic/config/model.py: AbstractPressureDependencyModel.pressure_dependency"]}
{"id": "C55", "title": "Powerfit adjusts the velocity ratio additively", "statement": "The material returned by powerfit pressure dependency has vp/vs equal to the old ratio plus the difference of fits, and bulk modulus and density shifted by their differences; a non-physical ratio is a ValueError.", "quantifier": "every material with positive shear and coefficients", "why_tests_cant": "The claim is about a continuum of real inputs; tests sample a handful of numbers (or random floats) and can miss any region where the algebra fails.", "anchors": ["src/open_petro_elastic/config/model.py: PowerfitModel.pressure_dependency"]}
{"id": "C56", "title": "Powerfit pressure dependency is the identity at reference", "statement": "When rock pore pressure equals the reference pore pressure the powerfit adjustment leaves the material unchanged.", "quantifier": "every pressure section with rock = reference", "why_tests_cant": "The claim is about a continuum of real inputs; tests sample a handful of numbers (or random floats) and can miss any region where the algebra fails.", "anchors": ["src/open_petro_elastic/config/pressure_dependency.py: PressureDependency.adjust_material", "src/open_petro_elastic/config/model.py: PowerfitModel.pressure_dependency"]}
{"id": "C57", "title": "Velocity coefficients are used as velocities", "statement": "A pressure model with velocity coefficients evaluated to a material gives a material with those primary and secondary velocities.", "quantifier": "every velocity-coefficient model", "why_tests_cant": "The claim is about a continuum of real inputs; tests sample a handful of numbers (or random floats) and can miss any region where the algebra fails.", "anchors": ["src/open_petro_elastic/config/model.py: AbstractPressureDependencyModel.eval_material"]}
{"id": "C58", "title": "Depth trend honours max_depth", "statement": "The depth used by a depth trend never exceeds max_depth (relative to reference).", "quantifier": "every depth, max depth, reference depth", "why_tests_cant": "The claim is about a continuum of real inputs; tests sample a handful of numbers (or random floats) and can miss any region where the algebra fails.", "anchors": ["src/open_petro_elastic/config/depth_trend.py: DepthTrend.effective_depth"]}
{"id": "C59", "title": "Identity polynomial leaves the material unchanged", "statement": "Depth trend / polyfit adjustment with coefficients of the identity polynomial returns the same material for every depth, and constant polynomials replace values.", "quantifier": "every material and value", "why_tests_cant": "The claim is about a continuum of real inputs; tests sample a handful of numbers (or random floats) and can miss any region where the algebra fails.", "anchors": ["src/open_petro_elastic/material/material.py: polyval_material", "src/open_petro_elastic/config/depth_trend.py: DepthTrend.adjust_material"]}
{"id": "C60", "title": "Adjustments apply in order and stop at first error", "statement": "The dry rock is the model material with every adjustment applied left to right: adjusting by A++B is adjusting by A then B; an empty list changes nothing; an error in any adjustment aborts.", "quantifier": "every list of adjustments", "why_tests_cant": "Lists of arbitrary length.", "anchors": ["src/open_petro_elastic/config/dry_rock.py: DryRock.adjust_material"]}
{"id": "C61", "title": "Missing polyfit coefficients get defaults, given ones survive", "statement": "After construction no coefficient needed by the dry-rock model is missing, every user-given coefficient is unchanged, and moduli/velocity flavour is unchanged.", "quantifier": "every subset of given coefficients", "why_tests_cant": "Every combination of presence.", "anchors": ["src/open_petro_elastic/config/dry_rock.py: DryRock.__post_init_post_parse__, add_default_polyfit_coefficents"]}
{"id": "C62", "title": "Porosity validators", "statement": "A friable/patchy dry rock is accepted iff porosity + 1e-5 <= critical porosity and (patchy) porosity - 1e-5 <= critical - upper bound cement fraction.", "quantifier": "every porosity and model", "why_tests_cant": "The claim is about a continuum of real inputs; tests sample a handful of numbers (or random floats) and can miss any region where the algebra fails.", "anchors": ["src/open_petro_elastic/config/dry_rock.py: porosity_does_not_exceed_*"]}
{"id": "C63", "title": "Negative porosity is rejected", "statement": "A dry rock with negative porosity is rejected when the input is read.", "quantifier": "every dry rock", "why_tests_cant": "The claim is about a continuum of real inputs; tests sample a handful of numbers (or random floats) and can miss any region where the algebra fails.", "anchors": ["src/open_petro_elastic/config/dry_rock.py: DryRock"]}
{"id": "C64", "title": "Column insertion replaces exactly the column references", "statement": "After inserting data no {column: name} reference remains, each is replaced by that data column, and every other part of the configuration is unchanged; inserting again changes nothing.", "quantifier": "every configuration tree and data table", "why_tests_cant": "Trees of arbitrary shape and depth.", "anchors": ["src/open_petro_elastic/config/input.py: insert_from_dataframe"]}
{"id": "C65", "title": "Column insertion fails iff a referenced column is missing", "statement": "insert_from_dataframe raises ColumnInsertionError iff some reference names a column the data lacks.", "quantifier": "every configuration tree and data table", "why_tests_cant": "Trees of arbitrary shape.", "anchors": ["src/open_petro_elastic/config/input.py: insert_from_dataframe"]}
{"id": "C66", "title": "Without data any column reference is an error", "statement": "With no data file, input is rejected with ColumnInsertionError iff the configuration contains a column reference anywhere.", "quantifier": "every configuration tree", "why_tests_cant": "Trees of arbitrary shape.", "anchors": ["src/open_petro_elastic/config/input.py: check_no_column_reference"]}
{"id": "C67", "title": "Exit code contract", "statement": "The exit code is 0 iff reading, calculation, writing and (if requested) calibration all succeed; otherwise it is -2 for input errors, -3 for invalid values, -4 for calibration errors, -1 for unexpected errors; output is written iff reading and calculation succeeded.", "quantifier": "every outcome of every stage", "why_tests_cant": "All combinations of stage outcomes.", "anchors": ["src/open_petro_elastic/__main__.py: run"]}
{"id": "C68", "title": "Success threshold", "statement": "With a threshold the run is reported as failed (-5) iff the percentage of rows that succeeded is below the threshold; output rows are exactly the successful rows in order.", "quantifier": "every list of row outcomes and threshold", "why_tests_cant": "Every number of rows and failures pattern.", "anchors": ["src/open_petro_elastic/__main__.py: run_with_threshold"]}
{"id": "C69", "title": "Threshold mode reports input errors as -2", "statement": "A malformed configuration or data file in threshold mode yields exit code -2 as in normal mode.", "quantifier": "every malformed input", "why_tests_cant": "Universal over inputs.", "anchors": ["src/open_petro_elastic/__main__.py: run_with_threshold, make_per_row_input"]}
{"id": "C70", "title": "Threshold percentage is exact", "statement": "The computed success percentage compares with an integer threshold as the exact rational percentage does (no floating-point misclassification).", "quantifier": "every number of rows and failures", "why_tests_cant": "Floating point rounding over all row counts.", "anchors": ["src/open_petro_elastic/__main__.py: run_with_threshold"]}
{"id": "C71", "title": "Row independence of the batch calculation", "statement": "Evaluating the whole table at once gives the same rows as evaluating each row separately; the batch fails iff at least one row fails.", "quantifier": "every table", "why_tests_cant": "All row counts and values.", "anchors": ["src/open_petro_elastic/material/material.py: Material.__init__, vectorize_material", "src/open_petro_elastic/__main__.py: calculate_results, run_with_threshold"]}
{"id": "C72", "title": "Percentage option", "statement": "The threshold option accepts exactly numbers in [0,100].", "quantifier": "every real", "why_tests_cant": "iff over reals", "anchors": ["src/open_petro_elastic/__main__.py: percentage"]}
{"id": "C73", "title": "Calculation does not modify its input", "statement": "Evaluating the fluid mixture leaves the pressures unchanged, so evaluating the same input twice gives the same result and the order of constituents does not matter.", "quantifier": "every input and every number of evaluations", "why_tests_cant": "Histories of evaluations.", "anchors": ["src/open_petro_elastic/config/fluid_model_providers.py: SpanWagnerFluidModelProvider.carbon_dioxide", "src/open_petro_elastic/config/fluids.py: Fluids.as_mixture"]}
{"id": "C74", "title": "Carbon dioxide works without naming a fluid model", "statement": "A carbon dioxide constituent with no fluid_model uses the Span-Wagner provider.", "quantifier": "every fluids section", "why_tests_cant": "The claim is about a continuum of real inputs; tests sample a handful of numbers (or random floats) and can miss any region where the algebra fails.", "anchors": ["src/open_petro_elastic/config/constituent.py: Constituent.as_material", "src/open_petro_elastic/config/material_type.py: CarbonDioxideMaterial.as_material"]}
{"id": "C75", "title": "Brie gas selection", "statement": "With default indices, exactly the gas and CO2 constituents are treated as gases, paired with their own saturations, and all others as liquids in order.", "quantifier": "every list of constituents", "why_tests_cant": "Lists of arbitrary length.", "anchors": ["src/open_petro_elastic/config/fluids.py: Fluids.__post_init_post_parse__, Fluids.as_mixture"]}
{"id": "C76", "title": "Provider name collisions are detected", "statement": "Loading fluid models raises ImportError iff two plugins share a name.", "quantifier": "every list of plugin names", "why_tests_cant": "Lists of arbitrary length.", "anchors": ["src/open_petro_elastic/config/fluid_model_providers.py: duplicate_names"]}
{"id": "C77", "title": "Oil blends dead and live oil continuously", "statement": "oil() equals dead oil at zero gas-oil ratio, live oil for |GOR| >= 1, and is their convex combination (in density and velocity) in between.", "quantifier": "every admissible input", "why_tests_cant": "The claim is about a continuum of real inputs; tests sample a handful of numbers (or random floats) and can miss any region where the algebra fails.", "anchors": ["src/open_petro_elastic/material/batzle_wang/oil_properties.py: oil, triangular_window"]}
{"id": "C78", "title": "Fresh brine is water", "statement": "Brine with salinity zero has density and velocity of water at the same temperature and pressure (up to the unit factor).", "quantifier": "every temperature and pressure", "why_tests_cant": "The claim is about a continuum of real inputs; tests sample a handful of numbers (or random floats) and can miss any region where the algebra fails.", "anchors": ["src/open_petro_elastic/material/batzle_wang/brine_properties.py: brine, brine_density, brine_primary_velocity", "src/open_petro_elastic/material/batzle_wang/water_properties.py"]}
{"id": "C79", "title": "Gas compressibility rate is the derivative", "statement": "The function used as dZ/dPpr is the derivative of the compressibility factor with respect to pseudo-reduced pressure.", "quantifier": "every temperature, gravity and positive pressure", "why_tests_cant": "A derivative identity at every point.", "anchors": ["src/open_petro_elastic/material/batzle_wang/hydro_carbon_gas.py: compressability_factor, compressability_rate_per_pseudoreduced_pressure"]}
{"id": "C80", "title": "Gas density obeys the real gas law", "statement": "gas density * Z * R * T = M * p in consistent units.", "quantifier": "every temperature, pressure, gravity", "why_tests_cant": "The claim is about a continuum of real inputs; tests sample a handful of numbers (or random floats) and can miss any region where the algebra fails.", "anchors": ["src/open_petro_elastic/material/batzle_wang/hydro_carbon_gas.py: gas_density", "src/open_petro_elastic/material/batzle_wang/ideal_gas.py"]}
{"id": "C81", "title": "Bubble point monotonicity", "statement": "Bubble point pressure is increasing in gas-oil ratio and temperature and decreasing in gas gravity.", "quantifier": "every admissible pair of inputs", "why_tests_cant": "The claim is about a continuum of real inputs; tests sample a handful of numbers (or random floats) and can miss any region where the algebra fails.", "anchors": ["src/open_petro_elastic/material/batzle_wang/oil_properties.py: oil_bubble_point"]}
{"id": "C82", "title": "Ideal-gas Helmholtz derivatives", "statement": "The (0,0) branch of ideal_gas_helmholtz_energy is the ideal-gas part published by Span and Wagner, and each branch is the corresponding partial derivative of it; orders above two raise NotImplementedError.", "quantifier": "every delta > 0, tau > 0", "why_tests_cant": "Derivative identity at every point.", "anchors": ["src/open_petro_elastic/material/span_wagner/carbon_dioxide.py: ideal_gas_helmholtz_energy"]}
{"id": "C83", "title": "CO2 pressure derivative", "statement": "The pressure is rho squared times the derivative of the specific Helmholtz energy in density, and the d_density=1 pressure is the derivative of the d_density=0 pressure with respect to density.", "quantifier": "every temperature > 0 and density > 0 except the critical density (and, for the first part, critical temperature), where the code moves the reduced variables off 1", "why_tests_cant": "Derivative identity.", "anchors": ["src/open_petro_elastic/material/span_wagner/carbon_dioxide.py: carbon_dioxide_pressure"]}
{"id": "C84", "title": "CO2 phase bounds", "statement": "Density search bounds select exactly one phase: below vapor pressure the vapor branch, above it the liquid branch, above critical temperature no restriction; the bracket is always a non-empty interval.", "quantifier": "every temperature and pressure", "why_tests_cant": "The claim is about a continuum of real inputs; tests sample a handful of numbers (or random floats) and can miss any region where the algebra fails.", "anchors": ["src/open_petro_elastic/material/span_wagner/carbon_dioxide.py: _determine_density_bounds"]}
{"id": "C85", "title": "Lookup tables return node values", "statement": "Looking up a generated table at a grid node returns the tabulated function there; elsewhere inside the grid, the value at a nearest node; outside, NaN.", "quantifier": "every function, grid and query point", "why_tests_cant": "Every grid size.", "anchors": ["src/open_petro_elastic/material/span_wagner/tables/lookup_table.py: generate_lookup_table, load_lookup_table_interpolator"]}
{"id": "C86", "title": "End-to-end ordering of results", "statement": "For every accepted run, output rows satisfy kdry <= ksat <= kmin_fls when 0 <= kdry, kf < kmin_fls, and rsat = dry density + porosity*fluid density.", "quantifier": "every accepted input row", "why_tests_cant": "The claim is about a continuum of real inputs; tests sample a handful of numbers (or random floats) and can miss any region where the algebra fails.", "anchors": ["src/open_petro_elastic/__main__.py: calculate_results"]}
{"id": "C87", "title": "Saturated rock is never softer than the dry rock", "statement": "Whenever fluid_substitution succeeds with porosity in (0,1), the saturated bulk modulus is at least the dry bulk modulus.", "quantifier": "all admissible dry rock, mineral, fluid; dry rock may be stiffer than the mineral (polyfit and depth trends do not prevent it)", "why_tests_cant": "The claim is about a continuum of real inputs; tests sample a handful of numbers (or random floats) and can miss any region where the algebra fails.", "anchors": ["src/open_petro_elastic/material/fluid.py: fluid_substitution"]}
{"id": "C88", "title": "Walpole mixing of two fluids is Wood mixing", "statement": "For two fluids both Walpole bounds coincide with wood_fluid_mixing of the same two fluids and fractions.", "quantifier": "every two fluids with positive bulk modulus, ratio in [0,1], either bound", "why_tests_cant": "The claim is about a continuum of real inputs; tests sample a handful of numbers (or random floats) and can miss any region where the algebra fails.", "anchors": ["src/open_petro_elastic/material/hashin_shtrikman.py: hashin_shtrikman_walpole"]}
{"id": "C89", "title": "Lower Walpole bound with a fluid constituent", "statement": "With one fluid and one solid the lower bound has zero shear modulus and Reuss bulk modulus when the fluid is second and its share is positive; with the fluid first, or second with share zero, ZeroDivisionError is raised.", "quantifier": "every solid, fluid, ratio in [0,1]", "why_tests_cant": "The claim is about a continuum of real inputs; tests sample a handful of numbers (or random floats) and can miss any region where the algebra fails.", "anchors": ["src/open_petro_elastic/material/hashin_shtrikman.py: hashin_shtrikman_walpole"]}
{"id": "C90", "title": "Hertz-Mindlin agrees with the handbook formula", "statement": "With no shear reduction K^3 = n^2(1-phi)^2 mu^2 P/(18 pi^2 (1-nu)^2) and G = (5-4nu)/(5(2-nu)) (3 n^2 (1-phi)^2 mu^2 P/(2 pi^2 (1-nu)^2))^(1/3).", "quantifier": "every grain pack and pressure >= 0", "why_tests_cant": "The claim is about a continuum of real inputs; tests sample a handful of numbers (or random floats) and can miss any region where the algebra fails.", "anchors": ["src/open_petro_elastic/material/sandstone/hertz_mindlin.py: hertz_mindlin"]}
{"id": "C91", "title": "Friable sand softens with porosity", "statement": "While the grain pack is not stiffer than the mineral, bulk modulus, shear modulus and density of friable sand are non-increasing in porosity.", "quantifier": "every grain pack, porosity <= porosity' <= critical, pressure > 0", "why_tests_cant": "The claim is about a continuum of real inputs; tests sample a handful of numbers (or random floats) and can miss any region where the algebra fails.", "anchors": ["src/open_petro_elastic/material/sandstone/friable_sand.py: friable_sand"]}
{"id": "C92", "title": "Patchy cement stiffens with pressure", "statement": "Bulk and shear modulus of patchy cement are non-decreasing in pressure, density does not depend on it.", "quantifier": "every admissible input, 0 < p <= q", "why_tests_cant": "The claim is about a continuum of real inputs; tests sample a handful of numbers (or random floats) and can miss any region where the algebra fails.", "anchors": ["src/open_petro_elastic/material/sandstone/patchy_cement.py: patchy_cement"]}
{"id": "C93", "title": "Patchy cement at the lower bound pressure is constant cement", "statement": "When the pressure is the lower bound pressure and the constant-cement modulus lies between the bounds, the patchy cement modulus is the constant-cement modulus.", "quantifier": "every admissible input", "why_tests_cant": "The claim is about a continuum of real inputs; tests sample a handful of numbers (or random floats) and can miss any region where the algebra fails.", "anchors": ["src/open_petro_elastic/material/sandstone/patchy_cement.py: patchy_cement"]}
{"id": "C94", "title": "Frictionless packs have Poisson's ratio 1/4", "statement": "With shear reduction zero both Hertz-Mindlin pack and contact cement have shear = 3/5 bulk modulus, i.e. Poisson's ratio 1/4.", "quantifier": "every grain pack with pressure > 0, every cementable sand", "why_tests_cant": "The claim is about a continuum of real inputs; tests sample a handful of numbers (or random floats) and can miss any region where the algebra fails.", "anchors": ["src/open_petro_elastic/material/sandstone/hertz_mindlin.py: hertz_mindlin", "src/open_petro_elastic/material/sandstone/contact_cement.py: contact_cement"]}
{"id": "C95", "title": "Contact cement follows the published equations", "statement": "The moduli are those of Dvorkin and Nur's equations (1)-(3) with the normal and tangential stiffness polynomials of appendix A.", "quantifier": "every solid cement and sand and every accepted porosity pair", "why_tests_cant": "The claim is about a continuum of real inputs; tests sample a handful of numbers (or random floats) and can miss any region where the algebra fails.", "anchors": ["src/open_petro_elastic/material/sandstone/contact_cement.py: shear_stiffness, normal_stiffness, contact_cement"]}
{"id": "C96", "title": "Results do not depend on the unit of stiffness", "statement": "Multiplying all input moduli and pressures by a factor multiplies output moduli by that factor and leaves density unchanged (Walpole, friable sand, patchy cement).", "quantifier": "every factor > 0 and every admissible input", "why_tests_cant": "The claim is about a continuum of real inputs; tests sample a handful of numbers (or random floats) and can miss any region where the algebra fails.", "anchors": ["src/open_petro_elastic/material/hashin_shtrikman.py: hashin_shtrikman_walpole", "src/open_petro_elastic/material/sandstone/friable_sand.py: friable_sand", "src/open_petro_elastic/material/sandstone/patchy_cement.py: patchy_cement"]}
{"id": "C97", "title": "Dry rock model is evaluated at the reference pressure", "statement": "The dry rock model is evaluated at the effective reference pressure (docs/adjusting_with_depth_and_pressure.md), so that a pressure dependency with the same model brings it to the rock's pressure exactly once.", "quantifier": "every dry rock, mineral, pressure section", "why_tests_cant": "The claim is about a continuum of real inputs; tests sample a handful of numbers (or random floats) and can miss any region where the algebra fails.", "anchors": ["docs/adjusting_with_depth_and_pressure.md", "src/open_petro_elastic/config/dry_rock.py: DryRock.material"]}
{"id": "C98", "title": "Polynomial fit formula", "statement": "polyval_material gives every property p as sum c[i][j] * p^i * value^j for every coefficient matrix, and rebuilds the material from moduli or velocities according to the flavour.", "quantifier": "every matrix, material, value", "why_tests_cant": "The claim is about a continuum of real inputs; tests sample a handful of numbers (or random floats) and can miss any region where the algebra fails.", "anchors": ["src/open_petro_elastic/material/material.py: polyval_material"]}
{"id": "C99", "title": "Depth trend as documented", "statement": "The depth trend adjusts a property p to sum c[i][j] * delta_depth^i * p^j.", "quantifier": "every depth trend", "why_tests_cant": "The claim is about a continuum of real inputs; tests sample a handful of numbers (or random floats) and can miss any region where the algebra fails.", "anchors": ["docs/adjusting_with_depth_and_pressure.md", "src/open_petro_elastic/config/depth_trend.py: DepthTrend.adjust_material"]}
{"id": "C100", "title": "Pressure fits as documented", "statement": "expfit is c1 + c2*exp(p/c3), logfit is c1 + c2*log10(p), polyfit is the polynomial with the highest power first, powerfit is c1 + p^c2.", "quantifier": "every coefficient list and pressure", "why_tests_cant": "The claim is about a continuum of real inputs; tests sample a handful of numbers (or random floats) and can miss any region where the algebra fails.", "anchors": ["docs/adjusting_with_depth_and_pressure.md", "src/open_petro_elastic/config/model.py: ExpfitModel.eval, LogfitModel.eval, PowerfitModel.eval, PolyfitModel.eval"]}
{"id": "C101", "title": "Default dry rock", "statement": "Without any dry rock configuration the dry rock has density rho*(1-phi), bulk modulus 2900-1300*phi and shear modulus 1700-800*phi, for every porosity below one and every mineral.", "quantifier": "every mineral, porosity in [0,1)", "why_tests_cant": "The claim is about a continuum of real inputs; tests sample a handful of numbers (or random floats) and can miss any region where the algebra fails.", "anchors": ["src/open_petro_elastic/config/dry_rock.py: DEFAULT_*_COEFFICIENTS"]}
{"id": "C102", "title": "Default velocity coefficients give a rock", "statement": "A dry rock with velocity coefficients left to their defaults is a valid material for every porosity up to the default critical porosity 0.4.", "quantifier": "every mineral and porosity in [0,0.4]", "why_tests_cant": "The claim is about a continuum of real inputs; tests sample a handful of numbers (or random floats) and can miss any region where the algebra fails.", "anchors": ["src/open_petro_elastic/config/dry_rock.py: DEFAULT_PRIMARY_COEFFICIENTS, DEFAULT_SECONDARY_COEFFICIENTS"]}
{"id": "C103", "title": "Configured coordination number is used", "statement": "A coordination number given for patchy cement is used by both its friable and its cemented part; left out, it is Murphy's number at the critical porosity.", "quantifier": "every patchy cement model", "why_tests_cant": "The claim is about a continuum of real inputs; tests sample a handful of numbers (or random floats) and can miss any region where the algebra fails.", "anchors": ["src/open_petro_elastic/config/model.py: PatchyCementModel"]}
{"id": "C104", "title": "Zero porosity patchy cement is its dense framework", "statement": "At zero porosity the patchy cement dry rock has exactly the stiffness of the dense material handed to fluid substitution, at every pressure.", "quantifier": "every patchy cement model and mineral", "why_tests_cant": "The claim is about a continuum of real inputs; tests sample a handful of numbers (or random floats) and can miss any region where the algebra fails.", "anchors": ["src/open_petro_elastic/config/model.py: PatchyCementModel.nonporous, eval_material"]}
{"id": "C105", "title": "Unreadable files are input errors", "statement": "Every failure to decode or parse the configuration or data file is reported with exit code -2.", "quantifier": "every failure of the readers", "why_tests_cant": "Universal over every outcome of every stage and tables of any length; tests exercise a few files.", "anchors": ["src/open_petro_elastic/__main__.py: load_config_from_yaml, load_data_from_csv, run"]}
{"id": "C106", "title": "Failing rows are given as NaN", "statement": "In threshold mode every data row has a row in the output, NaN where it failed (help text of --success_threshold).", "quantifier": "every table", "why_tests_cant": "Universal over every outcome of every stage and tables of any length; tests exercise a few files.", "anchors": ["src/open_petro_elastic/__main__.py: make_parser, run_with_threshold"]}
{"id": "C107", "title": "Meeting the threshold means success", "statement": "In threshold mode a run whose success percentage meets the threshold writes its rows and ends with 0.", "quantifier": "every table and threshold", "why_tests_cant": "Universal over every outcome of every stage and tables of any length; tests exercise a few files.", "anchors": ["src/open_petro_elastic/__main__.py: run_with_threshold"]}
{"id": "C108", "title": "Extreme thresholds", "statement": "Threshold 0 never fails a run, threshold 100 fails it iff some row failed.", "quantifier": "every table of up to 1e12 rows", "why_tests_cant": "Universal over every outcome of every stage and tables of any length; tests exercise a few files.", "anchors": ["src/open_petro_elastic/__main__.py: run_with_threshold"]}
{"id": "C109", "title": "Fluid models are the published equations", "statement": "In SI units, density and velocity of dead oil, live oil, water and brine are those of equations 18-20, 22-24 and 27-29 of Batzle and Wang, and the fluid has no rigidity.", "quantifier": "every input for which the function returns", "why_tests_cant": "The claim is about a continuum of real inputs; tests sample a handful of numbers (or random floats) and can miss any region where the algebra fails.", "anchors": ["src/open_petro_elastic/material/batzle_wang/oil_properties.py: dead_oil, live_oil", "src/open_petro_elastic/material/batzle_wang/brine_properties.py: brine", "src/open_petro_elastic/material/batzle_wang/water_properties.py: water"]}
{"id": "C110", "title": "Gas model is defined and published", "statement": "For pseudo-reduced temperature in [0.83, 4.1] and every positive pressure, gas() returns a fluid with positive density and bulk modulus, namely density M*p/(Z*R*T) and bulk modulus gamma0*p/(1 - Ppr/Z * dZ/dPpr) with dZ/dPpr the true derivative.", "quantifier": "every temperature, gravity and pressure in that range", "why_tests_cant": "The claim is about a continuum of real inputs; tests sample a handful of numbers (or random floats) and can miss any region where the algebra fails.", "anchors": ["src/open_petro_elastic/material/batzle_wang/hydro_carbon_gas.py: gas, gas_density, gas_bulk_modulus"]}
{"id": "C111", "title": "Gas gets denser with pressure", "statement": "At fixed temperature and gravity the gas density is strictly increasing in pressure.", "quantifier": "every pair of pressures, pseudo-reduced temperature in [0.83, 4.1]", "why_tests_cant": "The claim is about a continuum of real inputs; tests sample a handful of numbers (or random floats) and can miss any region where the algebra fails.", "anchors": ["src/open_petro_elastic/material/batzle_wang/hydro_carbon_gas.py: gas_density"]}
{"id": "C112", "title": "Gas at zero pressure is an error", "statement": "gas() at zero pressure raises ZeroDivisionError (from the molar volume), it never returns a material.", "quantifier": "every temperature and gravity", "why_tests_cant": "The claim is about a continuum of real inputs; tests sample a handful of numbers (or random floats) and can miss any region where the algebra fails.", "anchors": ["src/open_petro_elastic/material/batzle_wang/ideal_gas.py: molar_volume"]}
{"id": "C113", "title": "Ideal gas in documented units", "statement": "With pressure in Pa (docstring of ideal_gas) density obeys the ideal gas law in kg/m3 and, velocity being in m/s, the bulk modulus equals the pressure.", "quantifier": "every temperature, pressure, gravity", "why_tests_cant": "The claim is about a continuum of real inputs; tests sample a handful of numbers (or random floats) and can miss any region where the algebra fails.", "anchors": ["src/open_petro_elastic/material/batzle_wang/ideal_gas.py: ideal_gas, ideal_gas_primary_velocity"]}
{"id": "C114", "title": "Brine is usable at reservoir conditions", "statement": "For 0-100 degrees, 0-100 MPa and 0-300000 ppm, brine() returns a fluid with positive bulk modulus, at least 900 kg/m3 and 700 m/s.", "quantifier": "every temperature, pressure and salinity in the range", "why_tests_cant": "The claim is about a continuum of real inputs; tests sample a handful of numbers (or random floats) and can miss any region where the algebra fails.", "anchors": ["src/open_petro_elastic/material/batzle_wang/brine_properties.py: brine"]}
{"id": "C115", "title": "Salt makes brine denser", "statement": "Brine density is strictly increasing in salinity.", "quantifier": "every 0-350 degrees, 0-100 MPa, pair of salinities up to 300000 ppm", "why_tests_cant": "The claim is about a continuum of real inputs; tests sample a handful of numbers (or random floats) and can miss any region where the algebra fails.", "anchors": ["src/open_petro_elastic/material/batzle_wang/brine_properties.py: brine_density"]}
{"id": "C116", "title": "Water is in SI units", "statement": "water() returns a Material with density in kg/m3 and bulk modulus in Pa, as brine() does.", "quantifier": "every temperature and pressure", "why_tests_cant": "The claim is about a continuum of real inputs; tests sample a handful of numbers (or random floats) and can miss any region where the algebra fails.", "anchors": ["src/open_petro_elastic/material/batzle_wang/water_properties.py: water"]}
{"id": "C117", "title": "Heavy oil gives no number", "statement": "For a reference density above 1080 kg/m3 neither dead_oil nor oil returns a material with real properties.", "quantifier": "every temperature, pressure, gas-oil ratio and gravity", "why_tests_cant": "The claim is about a continuum of real inputs; tests sample a handful of numbers (or random floats) and can miss any region where the algebra fails.", "anchors": ["src/open_petro_elastic/material/batzle_wang/oil_properties.py: dead_oil_primary_velocity"]}
{"id": "C118", "title": "Dead oil density reacts to pressure and temperature", "statement": "Dead oil density is strictly increasing in pressure and strictly decreasing in temperature.", "quantifier": "every pair of pressures or temperatures above -17.78 degrees", "why_tests_cant": "The claim is about a continuum of real inputs; tests sample a handful of numbers (or random floats) and can miss any region where the algebra fails.", "anchors": ["src/open_petro_elastic/material/batzle_wang/oil_properties.py: dead_oil_density"]}
{"id": "C119", "title": "Live oil density reacts to pressure and temperature", "statement": "Live oil density is strictly increasing in pressure and strictly decreasing in temperature.", "quantifier": "every pair of pressures or temperatures", "why_tests_cant": "The claim is about a continuum of real inputs; tests sample a handful of numbers (or random floats) and can miss any region where the algebra fails.", "anchors": ["src/open_petro_elastic/material/batzle_wang/oil_properties.py: live_oil_density"]}
{"id": "C120", "title": "Negative gas-oil ratio is rejected", "statement": "oil() raises an exception for a negative gas-oil ratio.", "quantifier": "every input with negative ratio", "why_tests_cant": "The claim is about a continuum of real inputs; tests sample a handful of numbers (or random floats) and can miss any region where the algebra fails.", "anchors": ["src/open_petro_elastic/material/batzle_wang/oil_properties.py: oil, live_oil"]}
{"id": "C121", "title": "Condensate constituents can be evaluated", "statement": "A fluid section with a condensate constituent, which the configuration accepts, can be mixed.", "quantifier": "every fluids section with a condensate", "why_tests_cant": "Over all lists of constituents; tests use a handful.", "anchors": ["src/open_petro_elastic/config/material_type.py: CondensateMaterial", "src/open_petro_elastic/config/fluid_model_providers.py: BatzleWangFluidModelProvider.condensate"]}
{"id": "C122", "title": "Listed Brie gases", "statement": "With brie_gases given, exactly the constituents at the listed positions are gases with their own saturations; listing a position twice makes no difference; a position outside the list is an IndexError.", "quantifier": "every list of constituents and indices", "why_tests_cant": "Over all lists of constituents; tests use a handful.", "anchors": ["src/open_petro_elastic/config/fluids.py: Fluids.as_mixture"]}
{"id": "C123", "title": "Brie mixing without a gas", "statement": "With no gas constituent and no brie_gases, the first constituent is taken as the gas (docstring).", "quantifier": "every list of constituents without gas", "why_tests_cant": "Over all lists of constituents; tests use a handful.", "anchors": ["src/open_petro_elastic/config/fluids.py: Fluids"]}
{"id": "C124", "title": "Every loaded plugin can be used by its name", "statement": "After loading, each entry point is the provider under its own name, and default is batzle_wang.", "quantifier": "every list of entry points", "why_tests_cant": "Depends on installed packages.", "anchors": ["src/open_petro_elastic/config/fluid_model_providers.py: fluid_model_providers"]}
{"id": "C125", "title": "Fluid sections are accepted exactly when well-formed", "statement": "Reading a fluids section succeeds iff it has constituents, fractions within tolerance, at most one missing, known fluid models and mixing method; otherwise ValueError. Given fractions are kept and a completed list sums to one.", "quantifier": "every fluids section", "why_tests_cant": "Over all lists of constituents; tests use a handful.", "anchors": ["src/open_petro_elastic/config/fluids.py: Fluids", "src/open_petro_elastic/config/constituent.py: Constituent, fix_one_fraction"]}
{"id": "C126", "title": "Fluid fractions must add up to one", "statement": "As for minerals, a fluids section whose given fractions do not add up to one is rejected.", "quantifier": "every fluids section without missing fraction", "why_tests_cant": "Over all lists of constituents; tests use a handful.", "anchors": ["src/open_petro_elastic/config/fluids.py: fractions_should_not_exceed_one"]}
{"id": "C127", "title": "A constituent's own fluid model wins", "statement": "If every constituent names its fluid model, the fluid model of the section has no influence.", "quantifier": "every fluids section", "why_tests_cant": "Over all lists of constituents; tests use a handful.", "anchors": ["src/open_petro_elastic/config/constituent.py: Constituent.as_material"]}
{"id": "C128", "title": "Rows of a table agree with the scalar calculation", "statement": "Each row of a whole-table calculation equals the scalar calculation on the numbers in that row; an error is the error of some row, or NumPy refusing to combine constant and column, which does not happen for combinable configurations.", "quantifier": "every configuration and table with at least one row", "why_tests_cant": "All row counts, values and choices of constants versus columns.", "anchors": ["src/open_petro_elastic/__main__.py: calculate_results", "src/open_petro_elastic/material/material.py: vectorize_material, polyval_material", "src/open_petro_elastic/float_vectorize.py: float_vectorize"]}
{"id": "C129", "title": "Constants and columns are interchangeable", "statement": "Replacing a constant of the configuration by a column with that constant in every row does not change the result.", "quantifier": "every configuration and table", "why_tests_cant": "All choices of constants versus columns.", "anchors": ["src/open_petro_elastic/config/depth_trend.py: DepthTrend.effective_depth", "src/open_petro_elastic/config/model.py: eval_model", "src/open_petro_elastic/material/sandstone/patchy_cement.py: patchy_cement"]}
{"id": "C130", "title": "Selecting rows commutes with the calculation", "statement": "Selecting, repeating or reordering the rows of the input table does the same to the rows of the result.", "quantifier": "every accepted table and every selection of rows", "why_tests_cant": "All row counts and selections.", "anchors": ["src/open_petro_elastic/__main__.py: calculate_results"]}
{"id": "C131", "title": "Residual Helmholtz derivatives", "statement": "The residual part is the published one, the lambdified entries are its partial derivatives up to second order, and other orders raise KeyError.", "quantifier": "every delta > 0, tau > 0 other than 1 (moved off by the code)", "why_tests_cant": "Derivative identity at every point.", "anchors": ["src/open_petro_elastic/material/span_wagner/carbon_dioxide.py: co2_residual_helmholtz_energy", "src/open_petro_elastic/material/span_wagner/equations.py: residual_helmholtz_energy", "src/open_petro_elastic/material/span_wagner/coefficients.py"]}
{"id": "C132", "title": "Isentropic derivative of pressure", "statement": "With isentropic=True the d_density=1 branch is dp/drho at constant entropy, which exists unless ds/dT is zero.", "quantifier": "every temperature > 0 and density > 0 except the critical ones", "why_tests_cant": "Derivative identity at every point.", "anchors": ["src/open_petro_elastic/material/span_wagner/carbon_dioxide.py: carbon_dioxide_pressure"]}
{"id": "C133", "title": "Isentropic derivative is at least the isothermal one", "statement": "Where phi_tautau < 0 (positive heat capacity) both exist and the isentropic derivative is not smaller; at low density both are positive and it is strictly larger.", "quantifier": "every temperature > 0, every density > 0 with positive heat capacity", "why_tests_cant": "All real inputs.", "anchors": ["src/open_petro_elastic/material/span_wagner/carbon_dioxide.py: carbon_dioxide_pressure"]}
{"id": "C134", "title": "Ideal gas in the limit of low density", "statement": "p / (rho R T) tends to 1 as the density tends to 0.", "quantifier": "every temperature > 0", "why_tests_cant": "A limit.", "anchors": ["src/open_petro_elastic/material/span_wagner/carbon_dioxide.py: carbon_dioxide_pressure"]}
{"id": "C135", "title": "Saturation curves", "statement": "The curves are the published equations; they meet at the critical (triple) point; vapor density and the pressures increase with temperature, liquid density decreases.", "quantifier": "every temperature in the range of each curve", "why_tests_cant": "All pairs of temperatures.", "anchors": ["src/open_petro_elastic/material/span_wagner/carbon_dioxide.py: saturated_liquid_density, saturated_vapor_density, sublimation_pressure, vapor_pressure, melting_pressure"]}
{"id": "C136", "title": "Density search solves the pressure equation", "statement": "A density that is found lies in the bracket and has the requested pressure.", "quantifier": "every temperature, pressure and root finder that only returns roots inside its bracket", "why_tests_cant": "All real inputs and root finders.", "anchors": ["src/open_petro_elastic/material/span_wagner/carbon_dioxide.py: _calculate_carbon_dioxide_density, carbon_dioxide_density"]}
{"id": "C137", "title": "Carbon dioxide as a material", "statement": "The material has the given density, otherwise the one found, no shear modulus, and bulk modulus rho dp/drho|s in Pa; the provider converts Celsius and Pa.", "quantifier": "every temperature, pressure, density and root finder", "why_tests_cant": "All real inputs.", "anchors": ["src/open_petro_elastic/material/span_wagner/carbon_dioxide.py: carbon_dioxide, carbon_dioxide_bulk_modulus", "src/open_petro_elastic/config/fluid_model_providers.py: SpanWagnerFluidModelProvider.carbon_dioxide"]}
{"id": "C138", "title": "Packaged density table", "statement": "Inside 0-200 C and 0.5-100 MPa a lookup gives the density at a node within 0.25 K and 0.05 MPa; a state outside gives nan as documented, whatever raise_error.", "quantifier": "every tabulated function and query point", "why_tests_cant": "All real query points.", "anchors": ["src/open_petro_elastic/material/span_wagner/tables/lookup_table.py", "src/open_petro_elastic/material/span_wagner/carbon_dioxide.py: carbon_dioxide_density"]}
{"id": "C139", "title": "Derivatives that are not implemented are refused", "statement": "Orders of differentiation other than those implemented raise NotImplementedError.", "quantifier": "every temperature, density and order", "why_tests_cant": "All orders.", "anchors": ["src/open_petro_elastic/material/span_wagner/carbon_dioxide.py: carbon_dioxide_pressure"]}
{"id": "C140", "title": "Array density search", "statement": "Each density returned for arrays has the requested pressure to 1e-5 MPa, and every pressure in the documented range is accepted.", "quantifier": "every array of temperatures and pressures, every interpolator and root finder", "why_tests_cant": "All array lengths and values.", "anchors": ["src/open_petro_elastic/material/span_wagner/carbon_dioxide.py: array_carbon_dioxide_density, _find_initial_density_values"]}
{"id": "C141", "title": "Ideal-gas energy of arrays is row by row", "statement": "The ideal-gas part of arrays has in each row the value for the numbers in that row.", "quantifier": "every pair of broadcastable arrays", "why_tests_cant": "All array lengths.", "anchors": ["src/open_petro_elastic/material/span_wagner/carbon_dioxide.py: ideal_gas_helmholtz_energy"]}
{"id": "C142", "title": "Residual energy leaves its arguments alone", "statement": "Evaluating the residual part does not change the arrays passed to it.", "quantifier": "every pair of arrays", "why_tests_cant": "All arrays.", "anchors": ["src/open_petro_elastic/material/span_wagner/carbon_dioxide.py: co2_residual_helmholtz_energy"]}
{"id": "C143", "title": "Whole runs are row by row", "statement": "With constants and column references in the configuration, a data file is calculated exactly when each of its rows can be calculated alone, and then every row has the output it has alone.", "quantifier": "every configuration tree of constants and columns, every non-empty data file", "why_tests_cant": "All tables and configuration trees.", "anchors": ["src/open_petro_elastic/__main__.py: make_input, calculate_results", "src/open_petro_elastic/config/input.py: Input, _insert_from_dataframe"]}
{"id": "C144", "title": "Default and threshold mode agree", "statement": "If a default run writes anything, every row succeeds alone; if every row succeeds, any threshold up to 100 gives the default run; a threshold run that is not stopped is the default run on the succeeding rows.", "quantifier": "every configuration tree, data file and threshold", "why_tests_cant": "All tables and configuration trees.", "anchors": ["src/open_petro_elastic/__main__.py: run, run_with_threshold, make_per_row_input"]}
{"id": "C145", "title": "Output rows carry the labels of their data rows", "statement": "The rows written have the labels of the data rows they belong to, in the same order; without data there is one row labelled 0.", "quantifier": "every configuration, data file, threshold", "why_tests_cant": "All tables and configuration trees.", "anchors": ["src/open_petro_elastic/__main__.py: calculate_results, run_with_threshold"]}
{"id": "C146", "title": "A data key in the configuration has no effect", "statement": "A `data` key in the configuration file changes nothing: it is overwritten by the data file or None.", "quantifier": "every configuration and value of the key", "why_tests_cant": "All tables and configuration trees.", "anchors": ["src/open_petro_elastic/__main__.py: make_input", "src/open_petro_elastic/config/input.py: insert_dataframe"]}
{"id": "C147", "title": "Key order does not matter", "statement": "Two configurations that differ in the order of keys, at any depth, write the same rows with the same exit code, and have the same threshold runs.", "quantifier": "every configuration tree with distinct keys and every reordering", "why_tests_cant": "All permutations at every depth.", "anchors": ["src/open_petro_elastic/config/input.py: Input", "src/open_petro_elastic/__main__.py: make_input"]}
{"id": "C148", "title": "Accepted configurations conform to the schema", "statement": "A configuration with which anything is written has the documented sections and keys only, all required keys, and values of the right kind (numbers, words from a list, switches, matrices with rows of equal length, lists that are not empty); with the columns put in, exactly the configurations that do not conform are refused. A misspelt section is refused.", "quantifier": "every configuration tree with distinct keys, every data file", "why_tests_cant": "All tables and configuration trees.", "anchors": ["src/open_petro_elastic/config/pydantic_config.py", "src/open_petro_elastic/config/input.py: Input", "src/open_petro_elastic/config/material_type.py", "src/open_petro_elastic/config/model.py", "src/open_petro_elastic/config/dry_rock.py"]}
{"id": "C149", "title": "An explicit type is honoured", "statement": "If a material, model or adjustment gives a `type`, the object built is of that type, whatever other keys are present.", "quantifier": "every mapping with distinct keys", "why_tests_cant": "All tables and configuration trees.", "anchors": ["src/open_petro_elastic/config/material_type.py: MaterialType", "src/open_petro_elastic/config/model.py: PressureDependencyModel, SandstoneModel", "src/open_petro_elastic/config/dry_rock.py: Adjustment"]}
{"id": "C150", "title": "Leaving out a key is writing its default", "statement": "A run with a key left out is the run with the documented default written there, for every optional key of every section; an omitted section is an empty one.", "quantifier": "every configuration around the key, every data file and mode", "why_tests_cant": "All tables and configuration trees.", "anchors": ["src/open_petro_elastic/config/minerals.py", "src/open_petro_elastic/config/fluids.py", "src/open_petro_elastic/config/dry_rock.py", "src/open_petro_elastic/config/pressure.py", "src/open_petro_elastic/config/input.py: Input"]}
{"id": "C151", "title": "Documented configurations are accepted", "statement": "The configurations printed in the documentation and shipped as a tutorial are accepted by the program.", "quantifier": "every data file", "why_tests_cant": "All data files.", "anchors": ["tutorial_config/tutorial_config.yaml", "docs/getting_started_with_the_config_file_format.md", "docs/adjusting_with_depth_and_pressure.md"]}
{"id": "C152", "title": "Example configurations are accepted", "statement": "The configurations in examples/ are read without error with every data file that has their columns; those without columns pass all validators.", "quantifier": "every data file with the columns used", "why_tests_cant": "All data files.", "anchors": ["examples/example1.yaml", "examples/example2.yaml", "examples/example3.yaml", "examples/example4.yaml", "examples/friable_sand_example.yaml", "examples/patchy_cement_example.yaml", "examples/carbon_dioxide_example.yaml"]}
{"id": "C153", "title": "A model without type is the default model", "statement": "Leaving out `type` in a model selects polyfit, the default.", "quantifier": "every mapping without type", "why_tests_cant": "All tables and configuration trees.", "anchors": ["src/open_petro_elastic/config/model.py: PressureDependencyModel, SandstoneModel"]}
{"id": "C154", "title": "Accepted configurations can be calculated", "statement": "A configuration that passes validation fails only because of its values.", "quantifier": "every configuration", "why_tests_cant": "All tables and configuration trees.", "anchors": ["src/open_petro_elastic/config/minerals.py: Minerals", "src/open_petro_elastic/config/constituent.py: Constituent"]}
{"id": "C155", "title": "Materials of a run are possible ones", "statement": "A run that completes used minerals with positive density and non-negative moduli and velocities.", "quantifier": "every configuration", "why_tests_cant": "All tables and configuration trees.", "anchors": ["src/open_petro_elastic/config/material_type.py: ArbitraryMaterial", "src/open_petro_elastic/material/material.py: Material.__post_init__"]}
{"id": "C156", "title": "Pressure dependency scales as documented", "statement": "For every model but powerfit the adjusted density and moduli (velocities with velocity coefficients) are the given ones times f(effective)/f(reference); whenever these are the moduli of a material they are accepted.", "quantifier": "every model, material and pair of pressures", "why_tests_cant": "The claim is about a continuum of real inputs and every coefficient list; tests sample a handful.", "anchors": ["src/open_petro_elastic/config/model.py: AbstractPressureDependencyModel.pressure_dependency", "docs/adjusting_with_depth_and_pressure.md"]}
{"id": "C157", "title": "Coefficient lists must match", "statement": "A fit with a missing coefficient list, or lists of different lengths, is a ValueError for every material and pressure; lists too short for the formula are an IndexError; no coefficient is dropped.", "quantifier": "every fit and coefficient lists", "why_tests_cant": "The claim is about a continuum of real inputs and every coefficient list; tests sample a handful.", "anchors": ["src/open_petro_elastic/config/model.py: PolyfitModel, ExpfitModel, LogfitModel, PowerfitModel", "src/open_petro_elastic/config/coefficients.py: as_list"]}
{"id": "C158", "title": "Calibration statistics", "statement": "For kmin, kdry, ksat and kmin_fls the printed numbers are least, mean and greatest relative error over the rows that have a value on both sides, compared by row number; NaN if there is none; least <= mean <= greatest.", "quantifier": "every table of results and calibration file", "why_tests_cant": "All tables of results and all calibration files, of any length.", "anchors": ["src/open_petro_elastic/__main__.py: calibration_error, print_calibration_error, run_calibration"]}
{"id": "C159", "title": "Exit code after calibration", "statement": "A run that wrote its output ends with 0 exactly if the calibration file has the four columns, and with -4 if one is missing or the file is not CSV or empty.", "quantifier": "every run and calibration file", "why_tests_cant": "All tables of results and all calibration files, of any length.", "anchors": ["src/open_petro_elastic/__main__.py: run_calibration, run, run_with_threshold"]}
{"id": "C160", "title": "Faults of the calibration file are reported as -4", "statement": "Whatever is wrong with the calibration file, the exit code is -4.", "quantifier": "every calibration file", "why_tests_cant": "All tables of results and all calibration files, of any length.", "anchors": ["src/open_petro_elastic/__main__.py: run_calibration"]}
{"id": "C161", "title": "Calibration rows must match the results", "statement": "A calibration file with another number of rows than the output is an error.", "quantifier": "every calibration file", "why_tests_cant": "All tables of results and all calibration files, of any length.", "anchors": ["src/open_petro_elastic/__main__.py: run_calibration"]}
{"id": "C162", "title": "A run calibrated against its own output has no error", "statement": "If the written output is used as calibration file of the same run, all errors are 0.", "quantifier": "every run and property without zeros", "why_tests_cant": "All tables of results and all calibration files, of any length.", "anchors": ["src/open_petro_elastic/__main__.py: run_calibration, calculate_results, run_with_threshold"]}
{"id": "C163", "title": "Calculating with nan changes nothing without nan", "statement": "On a table without nan, the calculation that carries nan through gives the same rows and errors as the calculation on real numbers, wherever the latter stays within the real numbers.", "quantifier": "every configuration and table", "why_tests_cant": "All configurations and tables of any length, with nan in any cell.", "anchors": ["src/open_petro_elastic/__main__.py: calculate_results", "src/open_petro_elastic/material/material.py"]}
{"id": "C164", "title": "Rows with nan do not disturb other rows", "statement": "Each row of a table is calculated as if it were alone, also if it or another row contains nan; a row without nan keeps the values of the calculation on real numbers.", "quantifier": "every configuration and table with nan", "why_tests_cant": "All configurations and tables of any length, with nan in any cell.", "anchors": ["src/open_petro_elastic/__main__.py: calculate_results", "src/open_petro_elastic/material/material.py"]}
{"id": "C165", "title": "Only referenced columns matter", "statement": "Further columns of the data file, and the order of its columns, have no effect on a run.", "quantifier": "every configuration and data file with distinct column names", "why_tests_cant": "All configurations and data files, with any number of columns and rows.", "anchors": ["src/open_petro_elastic/config/input.py: insert_from_dataframe", "src/open_petro_elastic/__main__.py: make_input, make_per_row_input"]}
{"id": "C166", "title": "A missing column is an input error", "statement": "If the configuration refers to a column that the data file does not have, or there is no data file, the program ends with -2.", "quantifier": "every configuration whose column names are scalars", "why_tests_cant": "All configurations and data files, with any number of columns and rows.", "anchors": ["src/open_petro_elastic/config/input.py: insert_from_dataframe", "src/open_petro_elastic/__main__.py: make_input"]}
{"id": "C167", "title": "Missing values only take values away", "statement": "Taking numbers out of a table that can be calculated, anywhere but in the fractions of minerals, makes no check fail: every value of the result is as before or nan, or a division by zero ends the calculation.", "quantifier": "every configuration, table and set of missing cells", "why_tests_cant": "All tables, with missing values in any columns and rows.", "anchors": ["src/open_petro_elastic/__main__.py: calculate_results"]}
{"id": "C168", "title": "A missing mineral fraction is refused", "statement": "If the fraction of a mineral is missing in some row, the calculation ends with a ValueError.", "quantifier": "every configuration and table", "why_tests_cant": "All tables, with missing values in any columns and rows.", "anchors": ["src/open_petro_elastic/config/minerals.py: __post_init_post_parse__"]}
{"id": "C169", "title": "A missing value does not end the calculation", "statement": "Taking a number out of a table that can be calculated does not make the calculation fail.", "quantifier": "every configuration, table and missing cell", "why_tests_cant": "All tables, with missing values in any columns and rows.", "anchors": ["src/open_petro_elastic/material/fluid.py: gassmann"]}
{"id": "C170", "title": "Numbers give numbers", "statement": "A table without missing values that is calculated without error has numbers for results.", "quantifier": "every configuration and table", "why_tests_cant": "All tables, with missing values in any columns and rows.", "anchors": ["src/open_petro_elastic/__main__.py: calculate_results", "src/open_petro_elastic/material/sandstone/hertz_mindlin.py: hertz_mindlin"]}
{"id": "C171", "title": "Overpressured friable sand is nan", "statement": "A friable sand with a pore pressure above the overburden pressure gets nan for its moduli and no error.", "quantifier": "every mineral, fluid, porosity, packing and pressure", "why_tests_cant": "All real porosities, moduli and pressures.", "anchors": ["src/open_petro_elastic/material/sandstone/hertz_mindlin.py: hertz_mindlin", "src/open_petro_elastic/material/sandstone/friable_sand.py: friable_sand"]}
{"id": "C172", "title": "What is written is what is calculated", "statement": "For every configuration written with explicit types and every data file with the columns it names, each row of the output is the result of the model on the numbers of that row: missing moduli computed from velocities and density, coordination numbers by Murphy, gases by position, defaults of the coefficients, fluid and rock pressure replacing each other. Conversely every table whose rows have such results is calculated, unless NumPy refuses to combine a constant with a column.", "quantifier": "every configuration, data file and set of columns", "why_tests_cant": "All configurations of any number of minerals, fluids and adjustments, with any mixture of constants and columns.", "anchors": ["src/open_petro_elastic/config/input.py: Input", "src/open_petro_elastic/config/fluids.py: Fluids", "src/open_petro_elastic/config/dry_rock.py: DryRock", "src/open_petro_elastic/config/pressure.py: Pressure", "src/open_petro_elastic/__main__.py: run_with_args"]}
{"id": "C173", "title": "Ways of writing the same configuration", "statement": "Two configuration files that differ only in how the same thing is written give the same output: numbers written as text or as true and false, yes-or-no values as words or 0 and 1, values given in order instead of under keys, default values written or left out at any depth (minerals, fluids, materials, cement, dry rock models, trends), null for what is missing, and a type that the keys already tell.", "quantifier": "every configuration, every rewriting at any depth, every data file, with and without a threshold", "why_tests_cant": "Rewritings can be combined without limit at any depth; all data files.", "anchors": ["src/open_petro_elastic/config/input.py: Input", "src/open_petro_elastic/config/material_type.py: MaterialType", "src/open_petro_elastic/config/model.py: DryRockModel", "src/open_petro_elastic/config/constituent.py: Constituent", "src/open_petro_elastic/config/vector_type.py: Array"]}
{"id": "C174", "title": "Brine of negative salinity and oil heavier than 1080 kg/m3 are nan", "statement": "Where the fluid functions return a material for numbers, the bulk modulus and primary velocity of brine are nan exactly when the salinity is negative, and those of dead oil exactly when the reference density is negative or above 1080 kg/m3; oil of such a reference density is nan for every gas-oil ratio, as the dead oil takes part in the mean with weight zero. The density stays a number and no error is raised.", "quantifier": "all temperatures, pressures, salinities, reference densities, gas-oil ratios and gas gravities", "why_tests_cant": "Tests sample reservoir values; these are half-lines of inputs on which no check fails and nan comes out.", "anchors": ["src/open_petro_elastic/material/batzle_wang/brine_properties.py: brine_primary_velocity", "src/open_petro_elastic/material/batzle_wang/oil_properties.py: dead_oil_primary_velocity", "src/open_petro_elastic/material/batzle_wang/oil_properties.py: oil"]}
{"id": "C175", "title": "No file changes but those named as output", "statement": "Whatever the command line, a run changes no file except those named with --output_file and those inside a directory named with --generate-tutorial.", "quantifier": "all command lines, contents of the disk and behaviours of yaml, pandas and the calculation", "why_tests_cant": "Tests run the tool in a fresh directory with one command line each.", "anchors": ["src/open_petro_elastic/__main__.py: make_parser", "src/open_petro_elastic/__main__.py: run", "src/open_petro_elastic/__main__.py: generate_tutorial"]}
{"id": "C176", "title": "The command line runs the program on the files named last", "statement": "A command line without mistakes runs the program on the files and the threshold named last for each option. The status the shell sees is the exit code modulo 256, or 1 if an exception leaves the program. The output file holds the rows written, or nothing; files named as output before hold nothing; all other files are as they were. Inputs also named as output are read as empty.", "quantifier": "all command lines without mistakes, contents of the disk and behaviours of the stages", "why_tests_cant": "Tests run the tool in a fresh directory with one command line each.", "anchors": ["src/open_petro_elastic/__main__.py: make_parser", "src/open_petro_elastic/__main__.py: parse_arguments", "src/open_petro_elastic/__main__.py: main", "src/open_petro_elastic/__main__.py: run"]}
{"id": "C177", "title": "A failing run keeps the previous output", "statement": "A run that fails, or a command line that is rejected, leaves an existing output file as it was.", "quantifier": "all command lines and contents of the disk", "why_tests_cant": "Tests look at the output of runs that succeed.", "anchors": ["src/open_petro_elastic/__main__.py: make_parser", "src/open_petro_elastic/__main__.py: run"]}
{"id": "C178", "title": "A run leaves its input files as they were", "statement": "The configuration, data and calibration files are the same after a run as before.", "quantifier": "all command lines and contents of the disk", "why_tests_cant": "Tests write the output elsewhere.", "anchors": ["src/open_petro_elastic/__main__.py: make_parser", "src/open_petro_elastic/__main__.py: run"]}
{"id": "C179", "title": "Exit statuses", "statement": "The shell sees status 0, 1, 2 or 251 to 255. A command line that asks for a run and ends with 0 has written rows to the output file named last or to standard output; one without mistakes never ends with 2.", "quantifier": "all command lines, contents of the disk and behaviours of the stages", "why_tests_cant": "Tests run the tool in a fresh directory with one command line each.", "anchors": ["src/open_petro_elastic/__main__.py: main", "src/open_petro_elastic/__main__.py: run", "src/open_petro_elastic/__main__.py: run_with_threshold"]}
{"id": "C180", "title": "Standard output of a successful run is the table", "statement": "A successful run without output file prints the table of results and nothing else to standard output.", "quantifier": "all command lines and contents of the disk", "why_tests_cant": "Tests read standard output of runs without failing rows.", "anchors": ["src/open_petro_elastic/__main__.py: make_per_row_input", "src/open_petro_elastic/__main__.py: run_with_threshold", "src/open_petro_elastic/__main__.py: run_calibration"]}
{"id": "C181", "title": "The tutorial never overwrites", "statement": "Asked for first, --generate-tutorial writes its files into a new directory, changes nothing else and ends with status 0, without looking at the rest of the command line; a directory or file of that name is left alone and the status is 252.", "quantifier": "all directories, further arguments and contents of the disk", "why_tests_cant": "Tests run the tool in a fresh directory with one command line each.", "anchors": ["src/open_petro_elastic/__main__.py: generate_tutorial", "src/open_petro_elastic/__main__.py: GenerateTutorialAction"]}
{"id": "C182", "title": "Velocities in double precision", "statement": "In double precision, Material with moduli and density between 1e-30 and 1e30 (or zero moduli) is accepted, and its velocities are within 2^-49 of sqrt((K + 4/3 mu)/rho) and sqrt(mu/rho), unless mu is more than 2^46 times K. With K = 0 the check vp >= sqrt(4/3) vs can reject by rounding.", "quantifier": "all real moduli and densities in the range, every square root accurate to one unit in the last place", "why_tests_cant": "Tests compare a few values with a tolerance of 1e-5 or so; no test can show that rounding never adds up, nor that a guard never rejects by rounding.", "anchors": ["src/open_petro_elastic/material/seismic_velocity.py: calculate_primary_velocity", "src/open_petro_elastic/material/seismic_velocity.py: calculate_secondary_velocity", "src/open_petro_elastic/material/material.py: Material.__init__"]}
{"id": "C183", "title": "Repacking in double precision", "statement": "The moduli vectorize_material recomputes from the velocities of an accepted material are again accepted: the shear modulus is the old one within 2^-48, the bulk modulus within 2^-46 of the P-wave modulus, density and velocities are unchanged; unless mu is more than 2^46 times K. With K = 0 an accepted material can be refused when repacked.", "quantifier": "all real moduli and densities in the range", "why_tests_cant": "Tests compare a few values with a tolerance of 1e-5 or so; no test can show that rounding never adds up, nor that a guard never rejects by rounding.", "anchors": ["src/open_petro_elastic/material/material.py: vectorize_material", "src/open_petro_elastic/material/seismic_velocity.py: calculate_shear_modulus", "src/open_petro_elastic/material/seismic_velocity.py: calculate_bulk_modulus"]}
{"id": "C184", "title": "Gassmann's equation in double precision", "statement": "For doubles 0 <= Kdry <= Kmin, 0 <= Kf < Kmin, however close, no division by zero occurs, and the result is within 2^-48 of Gassmann's formula and between 0 and Kmin. It can be below Kdry by rounding.", "quantifier": "all doubles in the range", "why_tests_cant": "Tests compare a few values with a tolerance of 1e-5 or so; no test can show that rounding never adds up, nor that a guard never rejects by rounding.", "anchors": ["src/open_petro_elastic/material/fluid.py: fluid_substitution"]}
{"id": "C185", "title": "Fluid substitution in double precision", "statement": "Bulk modulus, density and velocities of the saturated rock are within 2^-48 of the formulas, the shear modulus is that of the dry rock and the bulk modulus at most that of the mineral.", "quantifier": "all doubles in the range with shear modulus of the dry rock at most 2^45 times its bulk modulus", "why_tests_cant": "Tests compare a few values with a tolerance of 1e-5 or so; no test can show that rounding never adds up, nor that a guard never rejects by rounding.", "anchors": ["src/open_petro_elastic/material/fluid.py: fluid_substitution"]}
{"id": "C186", "title": "Wood's mixture in double precision", "statement": "The mixture of n fluids is within (n + 4) 2^-51 of Wood's formula with saturations divided by their sum. Saturations that are all zero become all ones.", "quantifier": "all lists of up to 2^35 fluids and saturations in the range with a sum of at least 1e-14", "why_tests_cant": "Tests compare a few values with a tolerance of 1e-5 or so; no test can show that rounding never adds up, nor that a guard never rejects by rounding.", "anchors": ["src/open_petro_elastic/material/fluid.py: wood_fluid_mixing", "src/open_petro_elastic/material/fluid.py: sum_saturations_to_one", "src/open_petro_elastic/material/fluid.py: mix_bulk_moduli", "src/open_petro_elastic/material/fluid.py: mix_densities"]}
{"id": "C187", "title": "Fractions written as decimals are accepted", "statement": "Volume fractions that add up to one on paper are accepted when written as decimals, whatever the rounding of the fractions and of their sum. A sum between 1 - 19e-6 and 1 + 9e-6 is accepted, one below 1 - 21e-6 or above 1 + 11e-6 is rejected.", "quantifier": "all lists of up to 2^30 fractions between 1e-30 and 1 or zero", "why_tests_cant": "Tests compare a few values with a tolerance of 1e-5 or so; no test can show that rounding never adds up, nor that a guard never rejects by rounding.", "anchors": ["src/open_petro_elastic/config/constituent.py: fraction_is_ratio", "src/open_petro_elastic/config/constituent.py: fix_one_fraction", "src/open_petro_elastic/config/minerals.py: Minerals"]}
{"id": "C188", "title": "The remaining fraction in double precision", "statement": "The fraction given to the one mineral without is within (n + 1) 2^-51 of one minus the sum of the n others, and is never negative when the others add up to at most one.", "quantifier": "all lists of up to 2^30 fractions in the range", "why_tests_cant": "Tests compare a few values with a tolerance of 1e-5 or so; no test can show that rounding never adds up, nor that a guard never rejects by rounding.", "anchors": ["src/open_petro_elastic/config/constituent.py: fix_one_fraction"]}
{"id": "C189", "title": "Bounds are the published ones", "statement": "The bulk modulus K of hashin_shtrikman_walpole solves 1/(K + 4/3 Gm) = f/(K1 + 4/3 Gm) + (1-f)/(K2 + 4/3 Gm), the shear modulus the same with Gm/6 (9 Km + 8 Gm)/(Km + 2 Gm), where Km and Gm are the smaller (lower bound) or larger (upper bound) of the moduli; hashin_shtrikman_bound is the same with the moduli of the first material. The equations have one solution.", "quantifier": "all admissible pairs of materials and fractions from 0 to 1", "why_tests_cant": "Tests check single values against numbers computed elsewhere; they cannot show that the rearranged formulas in the code are the published equations for every input.", "anchors": ["src/open_petro_elastic/material/hashin_shtrikman.py: hashin_shtrikman_walpole", "src/open_petro_elastic/material/hashin_shtrikman.py: hashin_shtrikman_bound"]}
{"id": "C190", "title": "Friable sand is the published one", "statement": "Friable sand is the lower bound between the mineral and its Hertz-Mindlin pack at critical porosity, with share phi/phi_c of the pack; when the pack is softer than the mineral its moduli are the comparison medium, as in the textbook.", "quantifier": "all solid minerals, porosities up to the critical one and positive pressures", "why_tests_cant": "Tests check single values against numbers computed elsewhere; they cannot show that the rearranged formulas in the code are the published equations for every input.", "anchors": ["src/open_petro_elastic/material/sandstone/friable_sand.py: friable_sand", "src/open_petro_elastic/material/sandstone/hertz_mindlin.py: hertz_mindlin"]}
{"id": "C191", "title": "Constant cement is the published one", "statement": "Constant cement is the lower bound between the dense mixture of cement and sand and the contact cemented sand (Dvorkin and Nur) at the contact cement porosity, with share phi/phi_b of the latter.", "quantifier": "all cementable sands and porosities up to the contact cement porosity", "why_tests_cant": "Tests check single values against numbers computed elsewhere; they cannot show that the rearranged formulas in the code are the published equations for every input.", "anchors": ["src/open_petro_elastic/material/sandstone/constant_cement.py: constant_cement", "src/open_petro_elastic/material/sandstone/contact_cement.py: contact_cement"]}
{"id": "C192", "title": "Patchy cement is the published one", "statement": "Patchy cement blends friable and constant cement rock, for bulk and shear modulus separately, with the weight (at most 1, at least 0) that gives the rock of the given contact cement porosity at the lower bound pressure.", "quantifier": "all cementable sands, porosities and positive pressures", "why_tests_cant": "Tests check single values against numbers computed elsewhere; they cannot show that the rearranged formulas in the code are the published equations for every input.", "anchors": ["src/open_petro_elastic/material/sandstone/patchy_cement.py: patchy_cement"]}
{"id": "C193", "title": "From the command line to the output file", "statement": "A run of the command on a configuration of numbers and column names and a table ends with status 0 iff every row has a meaning under the scalar model, and then the output file (or standard output) holds under the label of each row what that model gives. With a success threshold exactly the rows with a meaning are written, unless their share is below the threshold (status 251, empty file) or there are none (255).", "quantifier": "all command lines without mistakes and without calibration, all writable configurations and non-empty tables of numbers", "why_tests_cant": "Tests run the command on a handful of files and compare some values; none can cover every configuration, table and option order.", "anchors": ["src/open_petro_elastic/__main__.py: main", "src/open_petro_elastic/__main__.py: run", "src/open_petro_elastic/__main__.py: run_with_threshold", "src/open_petro_elastic/__main__.py: make_input", "src/open_petro_elastic/__main__.py: calculate_results"]}
{"id": "C194", "title": "The Hashin-Shtrikman-Walpole bounds in double precision", "statement": "For two materials whose moduli differ by at most a factor c <= 2^40, the lower and the upper bound are computed without an exception, however close the moduli are, and the moduli are within c 2^-47 of the published equations, the density within 2^-50. With a material of bulk modulus zero the computed bulk modulus can be negative, and the mixture is refused.", "quantifier": "all materials with moduli and density positive doubles between 1e-30 and 1e30, shear moduli at most 2^45 times the bulk moduli; every double fraction between 0 and 1; every root and power accurate to one unit in the last place", "why_tests_cant": "Tests compare a few mixtures with a tolerance; none can show how the error grows with the contrast of the materials, nor that no pair of doubles makes the formula divide by zero.", "anchors": ["src/open_petro_elastic/material/hashin_shtrikman.py: hashin_shtrikman_walpole", "src/open_petro_elastic/material/hashin_shtrikman.py: check_is_ratio"]}
{"id": "C195", "title": "The text of a material determines it", "statement": "Two materials printed alike are equal, and the keyword arguments in the text build the same material again without an error.", "quantifier": "all materials, however built; every way of writing numbers that tells them apart and uses no comma", "why_tests_cant": "Tests never print a material; that the text is accepted back by the constructor for every combination of arguments is a statement about all of them.", "anchors": ["src/open_petro_elastic/material/material.py: Material.__str__", "src/open_petro_elastic/material/material.py: Material.__repr__"]}
{"id": "C196", "title": "A configuration can be given by name", "statement": "make_input reads a configuration given by name as the file of that name, as its documentation says.", "quantifier": "all names, files and data arguments; positional and keyword calls", "why_tests_cant": "Tests call make_input with positional arguments only.", "anchors": ["src/open_petro_elastic/__main__.py: takes_stream", "src/open_petro_elastic/__main__.py: make_input"]}
{"id": "C197", "title": "Messages name the cause", "statement": "When reading the input fails, the message printed quotes what the library found wrong.", "quantifier": "all texts of exceptions", "why_tests_cant": "Tests look at exit codes and exception classes, not at the messages.", "anchors": ["src/open_petro_elastic/__main__.py: load_config_from_yaml", "src/open_petro_elastic/__main__.py: load_data_from_csv", "src/open_petro_elastic/__main__.py: make_input"]}
{"id": "C198", "title": "Rounding in the Hashin-Shtrikman bound and average", "statement": "For moduli that differ at most by a factor c, the bound is computed without an exception and within c 2^-47 of the published equations, the average within c 2^-46.", "quantifier": "all pairs of materials of ordinary size, ratios in [0, 1], contrasts up to 2^40, square roots and reciprocals off by less than one unit in the last place", "why_tests_cant": "Tests compare a handful of mixtures with a tolerance of 1e-7 or more; cancellation grows with the contrast and is not sampled.", "anchors": ["src/open_petro_elastic/material/hashin_shtrikman.py: hashin_shtrikman_bound", "src/open_petro_elastic/material/hashin_shtrikman.py: hashin_shtrikman_average"]}
{"id": "C199", "title": "Missing values show in the results", "statement": "A density in a row of the results was calculated from values that are all there in that row: porosity, mineral densities, fluid conditions and fractions, cement, depths. The same holds for the bulk moduli, except that a saturated rock may take over the mineral's.", "quantifier": "all tables with and without missing values, all dry rock models, fluids and adjustments, every row", "why_tests_cant": "Tests contain no missing values. That no path through the calculation replaces a nan by a number (by a maximum, a comparison or a power with exponent 0) is a statement about all of them.", "anchors": ["src/open_petro_elastic/material/fluid.py: fluid_substitution", "src/open_petro_elastic/material/sandstone/patchy_cement.py: patchy_cement", "src/open_petro_elastic/config/fluids.py: Fluids.as_mixture", "src/open_petro_elastic/__main__.py: calculate_results"]}
{"id": "C200", "title": "Mistakes on the command line are refused", "statement": "A command line that asks for a run ends with status 2 and prints nothing to standard output if no settings are named, a file to read is missing, the output file cannot be written or the threshold is not a percentage.", "quantifier": "all command lines, disks and tools", "why_tests_cant": "Tests name one missing file at a time; options may come in any number and order, and a file named as output exists once that option has been read.", "anchors": ["src/open_petro_elastic/__main__.py: make_parser", "src/open_petro_elastic/__main__.py: percentage"]}
{"id": "C201", "title": "Failures are explained", "statement": "Statuses 251 to 255 come with a message on standard output; statuses 1 and 2 leave standard output empty.", "quantifier": "all command lines, disks and tools", "why_tests_cant": "Tests look at a message for chosen failures; every path to a negative return code has to print.", "anchors": ["src/open_petro_elastic/__main__.py: run", "src/open_petro_elastic/__main__.py: main"]}
{"id": "C202", "title": "A fluid with saturation zero has no effect", "statement": "A fluid constituent with saturation zero does not change the mixture.", "quantifier": "all lists of fluids and saturations, in Wood's formula, with nan", "why_tests_cant": "Tests give every fluid a positive bulk modulus.", "anchors": ["src/open_petro_elastic/material/fluid.py: wood_fluid_mixing", "src/open_petro_elastic/material/fluid.py: mix_bulk_moduli"]}
{"id": "C203", "title": "Logarithmic pressure dependency of overpressured rock is nan", "statement": "Where the pore pressure of the rock exceeds the overburden pressure, a logarithmic pressure dependency makes the density of that row nan, without an error.", "quantifier": "all tables, all settings of the dry rock, every row", "why_tests_cant": "Tests use pressures in the valid range; that no later adjustment or mixture turns nan back into a number is a statement about all of them.", "anchors": ["src/open_petro_elastic/config/model.py: LogFit.eval", "src/open_petro_elastic/config/pressure.py: Pressure.truncated_rock"]}
{"id": "C204", "title": "Statuses of runs of the program", "statement": "Without a success threshold, settings that are refused end the run with status 254, a ValueError of the calculation with 253 and other errors with 255, with an empty output file; otherwise the status is 0 and the rows are delivered.", "quantifier": "all settings, data, command lines without mistakes; with and without a data file", "why_tests_cant": "Tests produce a few failures; which status an exception of which stage ends in is a statement about all stages.", "anchors": ["src/open_petro_elastic/__main__.py: run", "src/open_petro_elastic/__main__.py: make_input"]}
{"id": "C205", "title": "Values written in a configuration", "statement": "A field for a number takes numbers, true and false, words Python's float() understands and columns of the data, and refuses everything else with a ValueError; array fields also take lists and matrices with rows of one length; whole numbers are cut off towards zero; yes/no fields take the listed words in any capitalisation.", "quantifier": "all values a configuration can hold, every meaning of float() and int() on words", "why_tests_cant": "Tests write a few kinds of values into a few fields; the statement is an equivalence over all values.", "anchors": ["src/open_petro_elastic/config/vector_type.py: Array.validate_type", "src/open_petro_elastic/config/pydantic_config.py"]}
{"id": "C206", "title": "Tables without rows", "statement": "A pressure dependency treats a table without rows alike whatever the kind of fit: the result has no rows.", "quantifier": "all fits, pressures, dry rocks", "why_tests_cant": "Nobody tests an empty table; np.vectorize refuses it for three kinds of fit only.", "anchors": ["src/open_petro_elastic/config/model.py: ExpfitModel.eval", "src/open_petro_elastic/config/model.py: LogfitModel.eval", "src/open_petro_elastic/config/model.py: PowerfitModel.eval"]}
{"id": "C207", "title": "Loose sands are calculated", "statement": "A configuration that describes a loose sand - solid minerals given by their moduli, fluids softer than any mineral mixed by Wood's law (given by their properties, or brine in the range of its formulas), porosity below the critical one, positive effective pressure - is calculated, whatever its numbers, and its result is in order: 0 < dry bulk modulus < saturated bulk modulus < mineral bulk modulus, positive shear modulus and density. A run on a table of such rows ends with status 0.", "quantifier": "all configurations in the range, all tables of such rows, all command lines", "why_tests_cant": "Every stage can refuse its input (negative radicands, zero divisors, fractions, bounds); tests run the chain on a few inputs, the statement excludes every refusal for the whole physical range.", "anchors": ["src/open_petro_elastic/__main__.py", "src/open_petro_elastic/config/input.py", "src/open_petro_elastic/config/model.py: FriableSandModel.eval", "src/open_petro_elastic/material/sandstone/friable_sand.py", "src/open_petro_elastic/material/fluid_substitution.py", "src/open_petro_elastic/material/batzle_wang/brine_properties.py"]}
{"id": "C208", "title": "Spellings of a command line", "statement": "Options may be written in full or by their first letters, values after a space or an equals sign: the run is that of the arguments meant. Words that are not written so are refused with status 2 and nothing on standard output, unless help, version or tutorial is asked for; words after these are of no consequence.", "quantifier": "all lists of words, all disks and behaviours of yaml, pandas and the calculation", "why_tests_cant": "There are as many command lines as there are words; tests run a few of them, and argparse decides by prefixes, signs and spaces, not by names.", "anchors": ["src/open_petro_elastic/__main__.py: make_parser", "src/open_petro_elastic/__main__.py: parse_arguments"]}
{"id": "C209", "title": "Unknown options are refused", "statement": "A word that begins with a dash and is neither an option nor a value makes the run end with status 2; so do the names with dash and underscore exchanged (--data_file, --output-file, --success-threshold, --generate_tutorial). An output file named before it has been emptied by then.", "quantifier": "all lists of words, all disks", "why_tests_cant": "There are as many command lines as there are words; tests run a few of them, and argparse decides by prefixes, signs and spaces, not by names.", "anchors": ["src/open_petro_elastic/__main__.py: make_parser", "src/open_petro_elastic/__main__.py: parse_arguments"]}
{"id": "C210", "title": "Standard output by name", "statement": "--output_file - is the same as leaving the option out.", "quantifier": "all command lines, all disks", "why_tests_cant": "There are as many command lines as there are words; tests run a few of them, and argparse decides by prefixes, signs and spaces, not by names.", "anchors": ["src/open_petro_elastic/__main__.py: make_parser"]}
{"id": "C211", "title": "Infinities do not change what real numbers give", "statement": "Calculated with the numbers of IEEE 754 (infinities, nan and a negative zero, but no rounding), materials, mixtures of fluids, fluid substitution, dry rock by polynomials and the fits of pressure dependency give what they give on real numbers, the same error included, wherever the latter is defined.", "quantifier": "all real inputs, either zero for zero, numbers of Python, of NumPy and rows of arrays", "why_tests_cant": "An infinity on the way need not be in the results: it may cancel, turn into zero or become nan. Tests compare results of ordinary numbers.", "anchors": ["src/open_petro_elastic/material/material.py: Material", "src/open_petro_elastic/material/fluid.py: wood_fluid_mixing", "src/open_petro_elastic/material/fluid.py: fluid_substitution", "src/open_petro_elastic/config/model.py: pressure_dependency"]}
{"id": "C212", "title": "Which infinite materials are accepted", "statement": "A material of NumPy numbers is accepted exactly when no modulus and no density is below zero (minus infinity included); zero density, infinity and nan are accepted, and a zero density gives infinite or nan velocities. Python's numbers raise ZeroDivisionError for zero density.", "quantifier": "all moduli and densities, infinities and nan included", "why_tests_cant": "An infinity on the way need not be in the results: it may cancel, turn into zero or become nan. Tests compare results of ordinary numbers.", "anchors": ["src/open_petro_elastic/material/material.py: Material.__init__", "src/open_petro_elastic/material/seismic_velocity.py: calculate_primary_velocity"]}
{"id": "C213", "title": "Pure pore as a number and as a column", "statement": "The default dry rock of porosity one gives the same saturated rock whether porosity is a number or a column.", "quantifier": "all minerals and fluids", "why_tests_cant": "An infinity on the way need not be in the results: it may cancel, turn into zero or become nan. Tests compare results of ordinary numbers.", "anchors": ["src/open_petro_elastic/material/material.py: vectorize_material", "src/open_petro_elastic/config/dry_rock.py: add_default_polyfit_coefficents"]}
{"id": "C214", "title": "Fluids without bulk modulus in Wood's mixture", "statement": "A fluid with bulk modulus zero makes the mixture one of bulk modulus zero if it is present, and is of no consequence if its saturation is zero.", "quantifier": "all lists of fluids and saturations", "why_tests_cant": "An infinity on the way need not be in the results: it may cancel, turn into zero or become nan. Tests compare results of ordinary numbers.", "anchors": ["src/open_petro_elastic/material/fluid.py: mix_bulk_moduli", "src/open_petro_elastic/material/fluid.py: wood_fluid_mixing"]}
{"id": "C215", "title": "Logarithmic fits where a pressure is zero", "statement": "A logarithmic pressure dependency is refused where the effective pressure or that of reference is zero.", "quantifier": "all coefficients, rocks and pressures", "why_tests_cant": "An infinity on the way need not be in the results: it may cancel, turn into zero or become nan. Tests compare results of ordinary numbers.", "anchors": ["src/open_petro_elastic/config/model.py: LogfitModel.eval", "src/open_petro_elastic/config/model.py: AbstractPressureDependencyModel.pressure_dependency"]}
{"id": "C216", "title": "Power fits of rocks without shear velocity", "statement": "A power fit leaves the shear modulus zero for a rock whose shear velocity is zero, changing bulk modulus and density by the fit; without either velocity the shear modulus is nan.", "quantifier": "all coefficients, rocks and positive pressures", "why_tests_cant": "An infinity on the way need not be in the results: it may cancel, turn into zero or become nan. Tests compare results of ordinary numbers.", "anchors": ["src/open_petro_elastic/config/model.py: PowerfitModel.pressure_dependency"]}
{"id": "C217", "title": "Arithmetic with infinities is that of the extended real line", "statement": "Sums, differences, products, quotients, absolute values and comparisons of the numbers calculated with are those of the extended real line, nan standing for what is undefined there; exponential, logarithm, root and powers are continued by their limits; signs of zeros, quotients by zero and powers of negative numbers are those of IEEE 754 and C's pow; Python's powers raise.", "quantifier": "all numbers, infinities and nan included", "why_tests_cant": "The rules for infinities, nan and signed zeros are met only on rare rows; a test would have to name each of them.", "anchors": ["src/open_petro_elastic/material/seismic_velocity.py: calculate_primary_velocity", "src/open_petro_elastic/config/model.py: LogfitModel.eval", "src/open_petro_elastic/config/model.py: ExpfitModel.eval"]}
{"id": "C218", "title": "Polynomials that do not depend on a property", "statement": "A polynomial whose coefficients do not depend on a property of the mineral gives the same dry rock whatever that property is.", "quantifier": "all coefficients and minerals", "why_tests_cant": "The rules for infinities, nan and signed zeros are met only on rare rows; a test would have to name each of them.", "anchors": ["src/open_petro_elastic/material/material.py: polyval_material"]}
{"id": "C219", "title": "Bounds and sandstone models with infinities", "statement": "With infinities, nan and signed zeros the bounds of Hashin, Shtrikman and Walpole, Hertz-Mindlin, friable sand, contact, constant and patchy cement give the results and errors of the real numbers wherever those suffice, whether numbers are Python's or NumPy's; in particular friable sand at zero effective pressure raises ZeroDivisionError.", "quantifier": "all inputs whose calculation stays within real numbers, for every kind of number", "why_tests_cant": "Division by zero needs the one mineral, ratio or porosity at which a denominator vanishes, and what follows depends on whether the numbers are NumPy's; tests use quartz and single numbers.", "anchors": ["src/open_petro_elastic/material/hashin_shtrikman.py: hashin_shtrikman_bound", "src/open_petro_elastic/material/hashin_shtrikman.py: hashin_shtrikman_walpole", "src/open_petro_elastic/material/sandstone/hertz_mindlin.py: hertz_mindlin", "src/open_petro_elastic/material/sandstone/friable_sand.py: friable_sand", "src/open_petro_elastic/material/sandstone/contact_cement.py: contact_cement", "src/open_petro_elastic/material/sandstone/constant_cement.py: constant_cement", "src/open_petro_elastic/material/sandstone/patchy_cement.py: patchy_cement"]}
{"id": "C220", "title": "Grains that cannot carry a load are refused", "statement": "Friable sand of grains without shear modulus, without contacts between grains or with critical porosity one is refused.", "quantifier": "all minerals, porosities, pressures", "why_tests_cant": "Division by zero needs the one mineral, ratio or porosity at which a denominator vanishes, and what follows depends on whether the numbers are NumPy's; tests use quartz and single numbers.", "anchors": ["src/open_petro_elastic/material/sandstone/hertz_mindlin.py: hertz_mindlin", "src/open_petro_elastic/material/sandstone/friable_sand.py: friable_sand"]}
{"id": "C221", "title": "The classical bound of a fluid and a solid", "statement": "hashin_shtrikman_bound with a fluid as first material is Reuss's average with no shear modulus, and at ratio zero the second material.", "quantifier": "all fluids, solids and ratios", "why_tests_cant": "Division by zero needs the one mineral, ratio or porosity at which a denominator vanishes, and what follows depends on whether the numbers are NumPy's; tests use quartz and single numbers.", "anchors": ["src/open_petro_elastic/material/hashin_shtrikman.py: hashin_shtrikman_bound"]}
{"id": "C222", "title": "Cemented grains without shear modulus", "statement": "Contact cement between grains without shear modulus has zero moduli; contact cement without shear modulus has nan for moduli; densities are right and there is no error.", "quantifier": "all minerals, cements and porosities, numbers being NumPy's", "why_tests_cant": "Division by zero needs the one mineral, ratio or porosity at which a denominator vanishes, and what follows depends on whether the numbers are NumPy's; tests use quartz and single numbers.", "anchors": ["src/open_petro_elastic/material/sandstone/contact_cement.py: contact_cement"]}
{"id": "C223", "title": "Fluids of Batzle and Wang with infinities", "statement": "With infinities, nan and signed zeros gas, dead oil, live oil, oil, water and brine have the properties, and raise the errors, of the real numbers wherever those suffice.", "quantifier": "all conditions whose calculation stays within real numbers", "why_tests_cant": "Infinity is a number to YAML, CSV and NumPy; tests give fluids the conditions of reservoirs and so never see what becomes of it.", "anchors": ["src/open_petro_elastic/material/batzle_wang/hydro_carbon_gas.py: gas", "src/open_petro_elastic/material/batzle_wang/oil_properties.py: dead_oil", "src/open_petro_elastic/material/batzle_wang/oil_properties.py: live_oil", "src/open_petro_elastic/material/batzle_wang/oil_properties.py: oil", "src/open_petro_elastic/material/batzle_wang/water_properties.py: water", "src/open_petro_elastic/material/batzle_wang/brine_properties.py: brine"]}
{"id": "C224", "title": "Infinite conditions of fluids are refused", "statement": "A fluid at infinite temperature or pressure, of infinite salinity, gas gravity or gas-oil ratio is refused with an error.", "quantifier": "all infinite conditions, other conditions finite", "why_tests_cant": "Infinity is a number to YAML, CSV and NumPy; tests give fluids the conditions of reservoirs and so never see what becomes of it.", "anchors": ["src/open_petro_elastic/material/batzle_wang/hydro_carbon_gas.py: gas", "src/open_petro_elastic/material/batzle_wang/oil_properties.py: oil", "src/open_petro_elastic/material/batzle_wang/water_properties.py: water", "src/open_petro_elastic/material/batzle_wang/brine_properties.py: brine"]}
{"id": "C225", "title": "Warnings do not change results", "statement": "The calculations that warn have the same results and errors as those that do not, for every table; each warning given is printed, and printed once.", "quantifier": "all configurations and tables, also those that fail", "why_tests_cant": "Which rows are warned about depends on pressures, temperatures, ratios and on the fluids that come earlier in the list; tests check that a warning appears at one point.", "anchors": ["src/open_petro_elastic/__main__.py: calculate_results", "src/open_petro_elastic/material/batzle_wang/oil_properties.py: live_oil", "src/open_petro_elastic/material/batzle_wang/water_properties.py: water_primary_velocity", "src/open_petro_elastic/config/dry_rock.py: warn_if_duplicate_adjustment"]}
{"id": "C226", "title": "Which warnings a run gives", "statement": "A run warns of repeated pressure dependencies or depth trends exactly if there are two of a kind, and of a fluid exactly if in some row its pressure is below the bubble point or above 100 MPa; a table is warned about as its rows are.", "quantifier": "all tables with one length of columns, pressures not negative, that are calculated", "why_tests_cant": "Which rows are warned about depends on pressures, temperatures, ratios and on the fluids that come earlier in the list; tests check that a warning appears at one point.", "anchors": ["src/open_petro_elastic/__main__.py: calculate_results", "src/open_petro_elastic/material/batzle_wang/oil_properties.py: live_oil", "src/open_petro_elastic/material/batzle_wang/water_properties.py: water_primary_velocity", "src/open_petro_elastic/config/dry_rock.py: warn_if_duplicate_adjustment"]}
{"id": "C227", "title": "Water outside 0 to 100 MPa is warned about", "statement": "A water velocity at a pressure outside [0,100] MPa, as the text of the warning says, is warned about.", "quantifier": "all temperatures, pressures and salinities", "why_tests_cant": "Which rows are warned about depends on pressures, temperatures, ratios and on the fluids that come earlier in the list; tests check that a warning appears at one point.", "anchors": ["src/open_petro_elastic/material/batzle_wang/water_properties.py: water_primary_velocity"]}
{"id": "C228", "title": "The bubble point warning is about the pressure configured", "statement": "A run warns that pressure is below the bubble point exactly if, in some row, the configured fluid pressure is below the bubble point of an oil.", "quantifier": "all tables with one length of columns, pressures not negative, that are calculated", "why_tests_cant": "Which rows are warned about depends on pressures, temperatures, ratios and on the fluids that come earlier in the list; tests check that a warning appears at one point.", "anchors": ["src/open_petro_elastic/material/batzle_wang/oil_properties.py: live_oil", "src/open_petro_elastic/config/fluid_model_providers.py: SpanWagnerFluidModelProvider"]}
{"id": "C229", "title": "Oil and gas at reservoir conditions are calculated", "statement": "Oil of 700 to 1000 kg/m3 with at most 200 l/l of gas, at 0 to 100 degrees and 0 to 100 MPa, and gas of gravity 0.5 to 1 at pressures up to 60 MPa, are calculated; density, velocity and bulk modulus stay in stated bounds and below 12 GPa.", "quantifier": "all temperatures, pressures, densities, gas-oil ratios and gravities in the ranges", "why_tests_cant": "Five continuous inputs with powers, roots and exponentials; tests check a few points of each formula, not that the formulas give a fluid throughout the range of use.", "anchors": ["src/open_petro_elastic/material/batzle_wang/oil_properties.py: oil, live_oil, dead_oil", "src/open_petro_elastic/material/batzle_wang/gas_properties.py: gas"]}
{"id": "C230", "title": "Reservoirs with brine, oil and gas are calculated", "statement": "A loose sand of solid minerals that holds brine, oil, gas and fluids given by their properties, mixed by Wood's law or by Brie's law with any positive exponent, is calculated for every row of the table, with dry rock softer than saturated rock softer than mineral, and the run ends with status 0.", "quantifier": "all such configurations and tables; saturations may be zero", "why_tests_cant": "Five continuous inputs with powers, roots and exponentials; tests check a few points of each formula, not that the formulas give a fluid throughout the range of use.", "anchors": ["src/open_petro_elastic/config/fluids.py: Fluids.as_mixture", "src/open_petro_elastic/material/fluid.py: brie_fluid_mixing, wood_fluid_mixing", "src/open_petro_elastic/__main__.py: make_input, calculate_results"]}
{"id": "C231", "title": "Polynomials in double precision", "statement": "A polynomial in two variables evaluated by numpy's polyval2d in double precision is finite and differs from the exact sum by at most (rows + columns) / 2^50 of the sum of the sizes of its terms.", "quantifier": "all rectangular coefficient matrices with rows + columns at most 20, all values of size 2^-40 to 2^40 or zero", "why_tests_cant": "Rounding errors of a chain of operations depend on every coefficient; tests compare a few values with a tolerance.", "anchors": ["src/open_petro_elastic/material/material.py: polyval_material", "src/open_petro_elastic/material/batzle_wang/water_properties.py: water_density"]}
{"id": "C232", "title": "Brine in double precision", "statement": "At 0 to 100 degrees, up to 100 MPa and up to 300000 ppm of salt, brine in double precision is accepted, and density, velocity and bulk modulus are within 1e-13, 1e-12 and 1e-11 of the equations of Batzle and Wang.", "quantifier": "all temperatures, pressures and salinities in the range; any square root accurate to one unit in the last place", "why_tests_cant": "Terms of different sign cancel, so that the error is not that of one operation; tests sample a few conditions and compare with four digits.", "anchors": ["src/open_petro_elastic/material/batzle_wang/brine_properties.py: brine, brine_density, brine_primary_velocity", "src/open_petro_elastic/material/batzle_wang/water_properties.py"]}
{"id": "C233", "title": "Hertz-Mindlin in double precision", "statement": "A pack of grains calculated in double precision is accepted, and its density, moduli and velocities are within 2^-42 of the published equations of Hertz and Mindlin.", "quantifier": "all minerals, porosities below one, pressures, shear reductions and coordination numbers of size 2^-40 to 2^40 (pressure, bulk modulus and shear reduction also zero); any square root and any power accurate to one unit in the last place", "why_tests_cant": "The exponent 1/3 and pi are rounded and Poisson's ratio is a difference, so that the error depends on every input; tests compare a few values with a tolerance.", "anchors": ["src/open_petro_elastic/material/sandstone/hertz_mindlin.py: hertz_mindlin", "src/open_petro_elastic/material/material.py: poisson_ratio"]}
{"id": "C234", "title": "Friable sand in double precision", "statement": "Friable sand calculated in double precision is accepted when mineral and pack at critical porosity differ at most by a factor k up to 2^39, and its density and moduli are within k 2^-42 of the published equations, its velocities within k 2^-40.", "quantifier": "all minerals, porosities up to the critical one, pressures, shear reductions and coordination numbers of size 2^-40 to 2^40; any square root, reciprocal and power accurate to one unit in the last place", "why_tests_cant": "The error of the pack and of the share pass through the bound, where differences of moduli are inverted; tests compare a few values with a tolerance.", "anchors": ["src/open_petro_elastic/material/sandstone/friable_sand.py: friable_sand", "src/open_petro_elastic/material/sandstone/hertz_mindlin.py: hertz_mindlin", "src/open_petro_elastic/material/hashin_shtrikman.py"]}
{"id": "C235", "title": "Velocities of bounds in double precision", "statement": "The velocities of a bound of two materials calculated in double precision are within c 2^-45 of those following from the published equations, when the moduli of the materials differ at most by the factor c (up to 2^40).", "quantifier": "all pairs of materials with moduli and densities positive doubles of size 2^-100 to 2^100, shear moduli at most 2^45 times the bulk moduli; every double share and both bounds; any square root and reciprocal accurate to one unit in the last place", "why_tests_cant": "Velocities follow from moduli that have lost digits; tests compare a few values with a tolerance.", "anchors": ["src/open_petro_elastic/material/hashin_shtrikman.py: hashin_shtrikman_walpole", "src/open_petro_elastic/material/material.py: primary_velocity, secondary_velocity"]}
{"id": "C236", "title": "The exponential fit in double precision", "statement": "The exponential fit of dry rock to pressure is calculated without an exception when p / c2 is at most 600 in size; its error is at most (|p / c2| + 4) 2^-51 of the sizes of its two terms, however they cancel.", "quantifier": "all pressures and coefficients with terms up to 2^1000; every exponential accurate to four units in the last place", "why_tests_cant": "Large terms of opposite sign cancel for some coefficients; tests try a few coefficients and pressures with a tolerance.", "anchors": ["src/open_petro_elastic/config/model.py: ExpfitModel.eval"]}
{"id": "C237", "title": "The logarithmic fit in double precision", "statement": "The logarithmic fit of dry rock to pressure is calculated for every pressure above zero with an error of at most 3 2^-51 of the sizes of its two terms; for other pressures it is not finite.", "quantifier": "all pressures and coefficients with terms up to 2^1000; every logarithm accurate to four units in the last place", "why_tests_cant": "Large terms of opposite sign cancel for some coefficients; tests try a few coefficients and pressures with a tolerance.", "anchors": ["src/open_petro_elastic/config/model.py: LogfitModel.eval"]}
{"id": "C238", "title": "The power fit in double precision", "statement": "The power fit of dry rock to pressure is calculated with a relative error of at most 3 2^-51.", "quantifier": "all positive pressures and coefficients with power and result in the range of doubles (2^-1000 to 2^1000); every power accurate to four units in the last place", "why_tests_cant": "Tests try a few coefficients and pressures with a tolerance.", "anchors": ["src/open_petro_elastic/config/model.py: PowerfitModel.eval"]}
{"id": "C239", "title": "Correction for pressure at the reference pressure in double precision", "statement": "At the reference pressure the correction by a polynomial, exponential or logarithmic fit returns the very same material, without any rounding, for moduli and for velocities. A fit of nearly zero at the reference pressure is refused.", "quantifier": "all fits, coefficients, library functions and pressures with a finite fit above 2e-20 in size; all materials made from doubles", "why_tests_cant": "Tests compare with a tolerance, and with a few fits; they do not tell a correction that drifts by a unit in the last place on each use from one that does not.", "anchors": ["src/open_petro_elastic/config/model.py: AbstractPressureDependencyModel.pressure_dependency"]}
{"id": "C240", "title": "Power fit at the reference pressure in double precision", "statement": "At the reference pressure the correction by the power fit returns bulk modulus and density without any rounding.", "quantifier": "all fits, coefficients, library functions, pressures and materials of doubles that are accepted", "why_tests_cant": "Tests compare with a tolerance, and with a few fits.", "anchors": ["src/open_petro_elastic/config/model.py: PowerfitModel.pressure_dependency"]}
{"id": "C241", "title": "Correction for pressure at any pressure in double precision", "statement": "A correction by a polynomial, exponential or logarithmic fit that is accepted multiplies density and moduli, or density and velocities, with the quotient of the fit at the pressure and at the reference pressure, up to a relative error of 2^-51.", "quantifier": "all fits, coefficients, library functions, pressures and materials; no restriction of sizes", "why_tests_cant": "Tests compare a few fits and pressures with a tolerance; they cannot bound the error for every fit.", "anchors": ["src/open_petro_elastic/config/model.py: AbstractPressureDependencyModel.pressure_dependency"]}
{"id": "C242", "title": "Correction by the power fit at any pressure in double precision", "statement": "A correction by the power fit that is accepted adds to density and bulk modulus the difference of the fit, up to 2^-51 of the terms; the shear modulus is the bulk modulus divided by a positive number that differs from the square of the corrected ratio of velocities less 4/3 by at most 2^-49 of the squared terms.", "quantifier": "all fits, coefficients, library functions, pressures and materials; no restriction of sizes", "why_tests_cant": "Tests compare a few fits and pressures with a tolerance; they cannot bound the error for every fit.", "anchors": ["src/open_petro_elastic/config/model.py: PowerfitModel.pressure_dependency"]}
{"id": "C243", "title": "The polynomial fit in double precision", "statement": "The polynomial fit of dry rock to pressure with n coefficients, highest power first, is calculated without an exception, with an error of at most n 2^-50 of the sum of the sizes of its terms.", "quantifier": "all pressures of size 2^-40 to 2^40 (or zero) and up to 20 coefficients, doubles of size 2^-100 to 2^100 (or zero)", "why_tests_cant": "Terms of opposite sign cancel for some coefficients; tests try a few with a tolerance.", "anchors": ["src/open_petro_elastic/config/model.py: PolyfitModel.eval"]}
{"id": "C244", "title": "Depth trends in double precision", "statement": "A material adjusted by polynomials that is accepted has the density and the velocities (or the moduli) of the polynomials, with an error of at most 2^-50 of the sum of the sizes of the terms for each row and column of coefficients. Arrays have the same density and velocities as numbers.", "quantifier": "all values, materials (sizes 2^-40 to 2^40 or zero) and matrices of coefficients with at most 20 rows and columns together; numbers and arrays; every square root", "why_tests_cant": "Arrays are made again from velocities, numbers are not; tests compare few materials with a tolerance.", "anchors": ["src/open_petro_elastic/material/material.py: polyval_material", "src/open_petro_elastic/material/material.py: vectorize_material"]}
