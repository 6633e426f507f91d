# Design: a Rocq model of open_petro_elastic

Sources are read in `/repo` (never built or run).  The development lives in
`rocq/theories` (logical name `Verif`).  Files named `*Model.v` contain only definitions,
each citing the file and lines it models.  `Spec.v` contains the small vocabulary used by
statements.  `*Proofs.v` contain lemmas.  `*Props.v` contain only the property theorems
(closed by `exact lemma`), their non-vacuity `Example`s and `Print Assumptions`.

## 1. How the Python is modelled

* **Numbers.**  Floating point numbers are modelled by the real numbers of the standard
  library (`Reals`).  Rounding, overflow and signed zero are *not* modelled, except in the
  threshold-percentage properties (C68, C70, C108), which use binary64 rounding of reals
  from Flocq.  Decimal literals in the source are taken as exact rationals.
* **Exceptions are values.**  `res A := Ok a | Err e` with
  `e ∈ {ValueError, ZeroDivisionError, NotImplementedError, …}`.
* **Leaving the reals.**  Where the Python would divide by zero, take a fractional power or
  square root of a negative number or a logarithm of a non-positive number, the model
  returns `Err NonFinite`.  Depending on whether operands are Python floats or NumPy arrays,
  the code then raises `ZeroDivisionError`, goes complex, or continues with inf/nan and a
  RuntimeWarning.  The model never continues past this point and never uses Coq's totalised
  `x / 0`, `sqrt (-1)`, `ln (-1)`.  Inside `float_vectorize`d functions the elements *are* Python
  floats, there the model returns the precise `ZeroDivisionError`.
* **Scalars first, then tables.**  Numeric functions are modelled on one row first.  RowModel models
  every stage of a run again with values that are constants (`Sc`) or columns (`Vec`), with
  `np.any` guards, `float_vectorize` and broadcasting as in the source; C71 and C128 relate
  rows of a table to one-row tables and to the scalar models.  Shape errors of NumPy are `ShapeError`.
* **Mutation** is modelled by state passing (fluid pressure array, C73).
* **pydantic**: ReadModel says how a configuration tree becomes an Input object (dataclasses from mappings and
  lists, unknown and missing keys, unions as first alternative that does not fail, null, conversion of numbers
  and strings by parameters).  C143-C155 rest on it.  In the other files validators are functions on already
  coerced values, in the order pydantic runs them.

## 2. Trusted base

* The Coq 8.16.1 kernel (and `coqchk`), and the reading of the Python source by eye.
* Standard-library axioms as printed by `Print Assumptions` below each theorem.  Expected:
  `ClassicalDedekindReals.sig_forall_dec`, `ClassicalDedekindReals.sig_not_dec`,
  `FunctionalExtensionality.functional_extensionality_dep` (real numbers), and for
  some results on `Rpower`/derivatives `Classical_Prop.classic`.  No axioms of our own; no axiom from
  other libraries.
* Semantics of NumPy/pandas/scipy primitives as restated in the model's comments.

## 3. Plan and outcome per property

| id | property | how it is modelled / proved | outcome |
|---|---|---|---|
| C01 | Moduli/velocity round trip | `mk_material` on optional arguments; `sqrt` algebra. | proved |
| C02 | Accepted materials are physically admissible | `mk_material` inversion: every `Ok` passed all six guards. | proved |
| C03 | Constructor acceptance criterion | case analysis of the guards; the vp guard is implied by K>=0 (sqrt monotone). | proved |
| C04 | Config materials obey the same admissibility as Material | `arbitrary_material` = `set_defaults` without guards; expected false: `_refuted` plus the part that holds. | partial. Refuted: configured materials skip every guard (material_type.py:26-27). The agreement theorem is what remains true. |
| C05 | Poisson ratio and wave modulus are consistent with velocities | field/sqrt algebra on accepted materials. | proved |
| C06 | Wood mixture lies between its constituents | fold sums over lists, induction; weighted harmonic mean bounds. | partial. Proved whenever the saturations are non-negative with total >= 1e-15. Refuted at smaller totals: all-zero saturations give every constituent weight one, totals in (0,1e-15) are divided by 1e-15 (fluid.py:19-25). |
| C07 | Wood mixing ignores order and scale | `Permutation` invariance of sums, scaling of `sum_saturations_to_one`. | proved |
| C08 | Wood mixing is mass conserving and exact for pure fluids | closed form of both sums. | proved |
| C09 | Saturations are normalised to sum to one | expected false for totals in (0,1e-15) and for all-zero lists of length >= 2: `_refuted`; holds for total >= 1e-15. | partial. Refuted: an exact iff is proved; the sum is not one for an all-zero list of length >= 2 nor for totals in (0,1e-15). |
| C10 | Wood mixing rejects mismatched lengths | expected false (`zip` truncates): `_refuted`. | partial. Refuted: zip silently truncates (fluid.py:28-35). Proved what happens instead: surplus fluids are dropped, surplus saturations scale bulk modulus up and density down. |
| C11 | Brie mixture lies between gas and liquid and grows with liquid saturation | power function monotone on [0,1]. | proved |
| C12 | Brie rejects exactly the malformed inputs and degenerates to Wood | case analysis on list lengths. | proved |
| C13 | Brie mixing conserves mass | closed forms from C08. | proved |
| C14 | Brie weights the gas by its own saturation | expected false: `_refuted` with explicit witness. | partial. Refuted: Brie does not normalise, gas weight is 1 - sum(liquid) whatever the gas saturations (fluid.py:91-95). Proved: scaling the gas saturations has no effect; the formula after scaling the liquid ones. |
| C15 | Fluid substitution solves Gassmann's equation | field algebra on the model. | proved |
| C16 | Saturated rock is between dry rock and mineral | inequalities by nra/field on df/(1+df). | proved |
| C17 | Stiffer fluid gives stiffer rock | monotonicity of x/(1+x) composed with monotone difference factor. | proved |
| C18 | Non-porous and mineral-like rock ignore the fluid | branch evaluation. | proved |
| C19 | Substitution leaves shear unchanged and adds pore-fluid mass | inversion of the success case. | proved |
| C20 | Exact rejection set of fluid substitution | full classification of outcomes. | proved |
| C21 | Fluid substitution is invertible | injectivity of the difference factor, explicit inverse function. | proved |
| C22 | Volume ratio check | case analysis. | proved |
| C23 | Walpole mixture lies between its constituents | mediant argument on Walpole formulas. | proved. For materials with the rigidity the formula needs; the remaining fluid cases are C88/C89. |
| C24 | Lower bound does not exceed upper bound | Walpole formula monotone in (km, mum). | proved |
| C25 | Walpole mixture at the endpoints | branch evaluation and field. | partial. Proved for two solids (lower) or at least one solid (upper). Refuted for a solid with an absent fluid: ZeroDivisionError at ratio 1. |
| C26 | Walpole mixing is symmetric | field identity, both branches. | partial. Proved for two solids (lower) or at least one solid (upper). Refuted for solid+fluid in the lower bound: one order works, the other raises ZeroDivisionError. |
| C27 | Mixing a material with itself | branch evaluation. | proved |
| C28 | Walpole bounds refine to the classical bound | field identity. | proved |
| C29 | Hashin-Shtrikman average is symmetric and between the bounds | field identity; between by C23-style argument. | proved |
| C30 | Bounds respect Reuss and Voigt | Walpole formula at zero / infinite comparison stiffness. | proved |
| C31 | Adding more of the stiffer constituent never softens the mixture | derivative-free monotonicity of the Walpole formula in the ratio. | proved |
| C32 | Fraction completion | lists of options; induction. | proved |
| C33 | Mineral mixture density is the volume-weighted average | induction over the fold with invariant fraction*density. | proved |
| C34 | Mineral mixture moduli stay within the constituents' range | induction over the fold with range invariant. | proved |
| C35 | A mineral with zero fraction has no effect | fold plus endpoint lemma. | proved |
| C36 | Mineral order does not matter | two minerals: proved; three: expected false, explicit witness. | partial. Proved for two minerals and for any number with a common shear modulus. Refuted for three general minerals: pairwise lower bounds take the minimum of the two at hand, so the result depends on the order. |
| C37 | Minerals are accepted exactly when fractions sum to one | isclose written out as |s-1| <= 1e-5+1e-5. | proved |
| C38 | Hertz-Mindlin cube-root pressure law | cube root through `Rpower`. | proved |
| C39 | Hertz-Mindlin grain pack density and shear reduction | algebra. | proved |
| C40 | Friable sand end members and density | composition of Hertz-Mindlin and Walpole. | partial. End members and density proved for every positive pressure. Refuted at pressure zero: the pack has no stiffness and the lower bound divides by zero for every mineral and porosity. |
| C41 | Friable sand moduli lie between pack and mineral and grow with pressure | monotonicity of Walpole in a constituent. | proved |
| C42 | Cement radius ratio is a ratio | sqrt monotone, clip semantics `np.clip(0.0,1.0,x)=min(1,x)`. | proved |
| C43 | Contact cement rejects exactly the impossible porosities | guard order. | proved. Rejection proved for all materials. Acceptance proved when the cement has at least a fifth of the grains' rigidity; much softer cement can give a negative stiffness and ValueError from Material. |
| C44 | Contact cement conserves mass | expected false: weights by radius ratio instead of volume fraction; `_refuted`. | partial. Refuted: density weighs cement by the radius ratio instead of the pore volume it fills. Proved exactly when mass is conserved. |
| C45 | Constant cement end members | composition. | proved |
| C46 | Patchy cement stays between friable sand and the cemented upper bound | clip weights convex combination. | proved |
| C47 | Patchy cement density | inversion. | proved |
| C48 | Coordination number fit is positive and decreasing | nra. | proved |
| C49 | Effective pressure truncation | Rmin. | proved |
| C50 | At least one pore pressure is required | validator sees keys that are always present; expected false: `_refuted`. | partial. Refuted: fluid and rock both given as null are accepted, the validator tests for keys that pydantic always fills in (pressure.py:30-34). Proved exactly when no pore pressure is left. |
| C51 | Missing pore pressure defaults to the other | default of fluid is 70e6, expected false for rock-only: `_refuted`; rock defaults to fluid proved. | partial. Proved for fluid only and for fluid: null with rock. Refuted for rock only: fluid keeps its own default of 70 MPa. |
| C52 | Pressure dependency is the identity at reference | algebra on eff/ref with guard |ref|>1e-20. | proved |
| C53 | Pressure dependency composes | algebra. | proved |
| C54 | Pressure dependency rejects a vanishing reference fit | guard precedes the division. | proved |
| C55 | Powerfit adjusts the velocity ratio additively | sqrt algebra on the rebuilt material. | partial. Values proved, the ratio up to sign. Refuted: a negative velocity ratio with square above 4/3 is accepted and turned positive. |
| C56 | Powerfit pressure dependency is the identity at reference | expected false (pore pressure vs effective reference): `_refuted`. | partial. Refuted: the fit at rock pore pressure is compared with the fit at effective reference pressure. Identity proved when those two numbers coincide. |
| C57 | Velocity coefficients are used as velocities | bound method is always truthy; expected false: `_refuted`. | partial. Refuted: model.py:67 tests the bound method, velocities are taken for moduli. Proved: the values are always taken for moduli, and exactly when that agrees with velocities. |
| C58 | Depth trend honours max_depth | clip result discarded; expected false: `_refuted`. | partial. Refuted: depth_trend.py:39 throws the clipped depth away; max_depth has no effect at all (proved). |
| C59 | Identity polynomial leaves the material unchanged | polynomial evaluation over coefficient lists. | proved |
| C60 | Adjustments apply in order and stop at first error | fold over list with errors. | proved |
| C61 | Missing polyfit coefficients get defaults, given ones survive | records of options. | proved |
| C62 | Porosity validators | guards. | proved |
| C63 | Negative porosity is rejected | expected false: `_refuted`. | partial. Refuted: no model rejects negative porosity when the input is read (proved for all models). |
| C64 | Column insertion replaces exactly the column references | tree datatype with nested induction. | proved |
| C65 | Column insertion fails iff a referenced column is missing | tree induction. | partial. Proved for scalar column names. Refuted for unhashable names: TypeError is raised instead. |
| C66 | Without data any column reference is an error | tree induction. | proved |
| C67 | Exit code contract | decision function over stage outcomes. | proved |
| C68 | Success threshold | decision function over list of row outcomes. | partial. Written rows and use of the threshold proved for all tables; with the true percentage proved outside a 1e-13 margin. Inside it refuted, see C70. |
| C69 | Threshold mode reports input errors as -2 | expected false (exception escapes): `_refuted`. | partial. Refuted: make_per_row_input is called outside any try (__main__.py:180), InputError leaves the program. |
| C70 | Threshold percentage is exact | SpecFloat binary64 evaluation; expected false: `_refuted`. | partial. Refuted: one success in ten rows is below a threshold of 10. Proved for whole-number thresholds and up to 1e12 rows whenever the percentage is not exactly the threshold; errors are only ever on the strict side. |
| C71 | Row independence of the batch calculation | second model of every stage on constants and columns (RowModel); row-wise agreement composed stage by stage. | partial. Proved for every table with at least one row (results, failures and kind of error). Refuted for a table without rows: constants of the configuration are still evaluated. |
| C72 | Percentage option | case analysis. | proved |
| C73 | Calculation does not modify its input | state passing; expected false (in-place `/=`): `_refuted`. | partial. Refuted: `pressure /= 1e6` (fluid_model_providers.py:54) writes into the input. Proved: the exact pressure after evaluation and the pressure each constituent sees; the claim holds when no constituent is handled by Span-Wagner. |
| C74 | Carbon dioxide works without naming a fluid model | expected false: `_refuted`. | partial. Refuted: the section's provider (Batzle-Wang by default) is always passed, so the default span_wagner argument of CarbonDioxideMaterial.as_material is never used; NotImplementedError. Proved for a named model. |
| C75 | Brie gas selection | list popping model; default indices proved, user-supplied duplicates a finding. | proved |
| C76 | Provider name collisions are detected | multiset counting. | proved |
| C77 | Oil blends dead and live oil continuously | window function. | proved |
| C78 | Fresh brine is water | polynomial evaluation. | proved |
| C79 | Gas compressibility rate is the derivative | Coquelicot `is_derive`. | proved |
| C80 | Gas density obeys the real gas law | field. | proved |
| C81 | Bubble point monotonicity | Rpower/exp monotone. | proved |
| C82 | Ideal-gas Helmholtz derivatives | `derivable_pt_lim` via Coquelicot `is_derive` on the finite sum; value against the coefficients as published. | proved |
| C83 | CO2 pressure derivative | chain rule through the reduced variables; residual derivatives from C131. | proved |
| C84 | CO2 phase bounds | case analysis, bounds on the saturation curves; `_refuted` for the empty bracket far below the triple point and for the overlap near the critical point. | partial. Branches proved for every temperature, non-empty bracket from the triple point on. Refuted: empty bracket at 100 K; brackets of the two phases overlap near the critical point. |
| C85 | Lookup tables return node values | row-major reshape arithmetic; nearest index search. | proved |
| C86 | End-to-end ordering of results | composition of the stages. | partial. Proved for porosity >= 0 (row and table); refuted for negative porosity, which a polynomial rock model accepts. |
| C87 | Saturated rock is never softer than the dry rock | expected false (no guard kdry <= kmin): `_refuted` witness. | partial. Refuted: a dry rock stiffer than its mineral is accepted and comes out softer (fluid.py:122-146 has no kdry <= kmin guard). Proved exactly when the claim holds. |
| C88 | Walpole mixing of two fluids is Wood mixing | both sides in closed form; equality of results. | proved |
| C89 | Lower Walpole bound with a fluid constituent | case analysis of zero divisions. | proved |
| C90 | Hertz-Mindlin agrees with the handbook formula | cube both sides. | proved |
| C91 | Friable sand softens with porosity | monotonicity of the Walpole bound in the ratio. | proved |
| C92 | Patchy cement stiffens with pressure | the weights do not depend on the pressure; friable sand is monotone. | proved |
| C93 | Patchy cement at the lower bound pressure is constant cement | interpolation weight inverts. | proved |
| C94 | Frictionless packs have Poisson's ratio 1/4 | field. | proved |
| C95 | Contact cement follows the published equations | unfold against the written-out formulas. | proved |
| C96 | Results do not depend on the unit of stiffness | homogeneity of the closed forms. | proved |
| C97 | Dry rock model is evaluated at the reference pressure | expected false (truncated_rock is used): `_refuted`, plus an exact description of the double counting. | partial. Refuted: dry_rock.py:148 uses the rock pressure; a rock with its own model as pressure dependency counts the change twice (proved). |
| C98 | Polynomial fit formula | induction over rows and columns. | proved |
| C99 | Depth trend as documented | index roles are swapped in the code: `_refuted`; the formula with swapped roles is proved. | partial. Refuted: the index roles are swapped (c[i][j]*p^i*depth^j) and max_depth is ignored; the actual formula is proved. |
| C100 | Pressure fits as documented | unfold; powerfit multiplies instead: `_refuted`. | partial. Expfit, logfit and polyfit proved. Refuted for powerfit: c1*p^c2 instead of the documented c1+p^c2. |
| C101 | Default dry rock | instance of the polynomial formula. | proved |
| C102 | Default velocity coefficients give a rock | false beyond 0.3635: exact iff and `_refuted`. | partial. Proved up to 0.36 with an exact iff. Refuted at 0.37: default vp/vs falls below sqrt(4/3). |
| C103 | Configured coordination number is used | cement part keeps its default 9: `_refuted`; defaults proved. | partial. Defaults proved. Refuted: the cemented part always uses 9, whatever is configured (model.py:322-334). |
| C104 | Zero porosity patchy cement is its dense framework | end points of the lower bound. | proved |
| C105 | Unreadable files are input errors | only YAMLError, ParserError and EmptyDataError are caught: `_refuted` with a UnicodeDecodeError. | partial. Refuted: UnicodeDecodeError is not among the caught classes, the run ends with -1. Proved exactly which exceptions end with -2. |
| C106 | Failing rows are given as NaN | failing rows are dropped: `_refuted`. | partial. Refuted: failing rows are dropped (__main__.py:183-191, 202). Proved: the output is the successful rows in order. |
| C107 | Meeting the threshold means success | false when there is nothing to concatenate: `_refuted`; proved when some row succeeded. | partial. Proved when at least one row succeeded. Refuted for empty data and for threshold 0 with no success: pd.concat of nothing raises ValueError, exit code -1. |
| C108 | Extreme thresholds | range and error bound of the double precision percentage. | proved |
| C109 | Fluid models are the published equations | equations transcribed in the paper's form and units (BatzleWangSpec.v); the Horner evaluation of coefficient tables and the unit factors are shown to give them. | proved |
| C110 | Gas model is defined and published | positivity of Z, of Z - Ppr*dZ/dPpr and of gamma0 on the range. | proved |
| C111 | Gas gets denser with pressure | p/Z is increasing since Z = linear + constant + decreasing part. | proved |
| C112 | Gas at zero pressure is an error | direct. | proved |
| C113 | Ideal gas in documented units | false: pressure is multiplied by 1e6 once more and molar mass is in g; `_refuted`, with the actual factors proved. | partial. Refuted: as a function of pressure in Pa the density is off by 1e12 and the bulk modulus by 1e9 (proved). gas_density compensates by passing MPa*1e-6, so gas() is right (C80). |
| C114 | Brine is usable at reservoir conditions | range estimates for the polynomials. | proved |
| C115 | Salt makes brine denser | difference factored as (s2-s1)(a+b(s1+s2)), positive at both ends. | proved |
| C116 | Water is in SI units | false: density in g/cc next to velocity in m/s; `_refuted`. | partial. Refuted: water() is in g/cc. Proved: its density and bulk modulus are a thousandth of those of fresh brine at every temperature and pressure. |
| C117 | Heavy oil gives no number | the radicand 1.08/rho - 1 is negative. (NumPy gives nan with a RuntimeWarning there, and the guards of Material let nan through.) | proved |
| C118 | Dead oil density reacts to pressure and temperature | temperature proved; pressure proved up to 73 MPa and `_refuted` at 100/150 MPa (the cubic term wins). | partial. Temperature proved, pressure proved up to 73 MPa. Refuted above: from 100 to 150 MPa the density falls. |
| C119 | Live oil density reacts to pressure and temperature | temperature proved; `_refuted` for pressure, which live_oil_density never reads. | partial. Temperature proved. Refuted for pressure: live_oil_density never reads its pressure argument (oil_properties.py:404-423). |
| C120 | Negative gas-oil ratio is rejected | false, the window is symmetric and the bubble point only warns: `_refuted`. | partial. Refuted: a gas-oil ratio of -0.5 is accepted (for the NumPy numbers a configuration holds). Proved exactly what is asked of the ratio: the base of the power in the volume factor is not negative. |
| C121 | Condensate constituents can be evaluated | false: neither shipped provider has a condensate model; `_refuted`, and shown to fail always. | partial. Refuted: condensate fails under both shipped providers. |
| C122 | Listed Brie gases | popping at descending distinct positions selects them; `_refuted` for duplicates, which pop the neighbour. | partial. Proved for distinct positions in range, for one position counted from the end and for positions out of range. Refuted for repeated positions and for two counted from the end. |
| C123 | Brie mixing without a gas | false: no gas is selected and Brie mixing equals Wood mixing; `_refuted`. | partial. Refuted: the mixture then equals Wood mixing (proved). |
| C124 | Every loaded plugin can be used by its name | proved for names other than default; `_refuted` for a plugin called default, which is overwritten without a message. | partial. Proved for names other than default; refuted for a plugin named default. |
| C125 | Fluid sections are accepted exactly when well-formed | composition of the validators, including validation of the completed fraction on assignment. | proved |
| C126 | Fluid fractions must add up to one | false: only sums above one are rejected; `_refuted`. | partial. Refuted: fractions summing to 0.5 are accepted. Proved: with all fractions given, only a sum above one is refused. |
| C127 | A constituent's own fluid model wins | direct. | proved |
| C128 | Rows of a table agree with the scalar calculation | stage by stage agreement of the table model with the scalar model. | proved |
| C129 | Constants and columns are interchangeable | false: `_refuted` with a depth trend; proved otherwise for combinable configurations (`_partial`). | partial. Refuted: constant depth with a column of reference depths. Proved for combinable configurations; otherwise same result or shape error. |
| C130 | Selecting rows commutes with the calculation | corollary of row independence (C71). | proved |
| C131 | Residual Helmholtz derivatives | a term-by-term derivative table, each entry proved with Coquelicot; published groups written out in SpanWagnerSpec. | proved |
| C132 | Isentropic derivative of pressure | entropy defined from the Helmholtz energy in SpanWagnerSpec; Maxwell relation, implicit slope. | proved |
| C133 | Isentropic derivative is at least the isothermal one | square over heat capacity; limits for delta to 0. | proved |
| C134 | Ideal gas in the limit of low density | bound on each residual term. | proved |
| C135 | Saturation curves | monotonicity of Rpower and exp; sign arguments per term. | proved |
| C136 | Density search solves the pressure equation | root finder as a parameter with a soundness condition; `_refuted` for the empty bracket. | partial. Proved that a density found solves the equation. Refuted that one is found: at 100 K the search always ends with ValueError (None without raise_error). |
| C137 | Carbon dioxide as a material | inversion of the constructors. | proved |
| C138 | Packaged density table | spacing of the grids. | proved |
| C139 | Derivatives that are not implemented are refused | case analysis; `_refuted` for d_density=2. | partial. Proved for temperature derivatives. Refuted for d_density=2: the function falls through and returns None. |
| C140 | Array density search | row by row acceptance test; `_refuted` for the second half. | partial. Accuracy proved for every row. Refuted: 500 MPa at 400 K is refused, the pressure grid ends at 1.01 times the highest temperature. |
| C141 | Ideal-gas energy of arrays is row by row | `_refuted` for an array of densities with one temperature. | partial. Proved for two arrays of the same length. Refuted for one temperature and several densities: only the first row comes back. |
| C142 | Residual energy leaves its arguments alone | `_refuted`: ones are overwritten. | partial. Refuted: entries equal to 1 are overwritten. Proved for arrays without ones. |
| C143 | Whole runs are row by row | value trees read by a model of the pydantic dataclasses; relation between readings of a table and of one row, then C71 and C128. | proved |
| C144 | Default and threshold mode agree | C143 and the theorems about thresholds; `_refuted` for literal lists, coefficient columns and a column for the Brie constant. | partial. Proved for constants and columns. Refuted for lists of numbers in the configuration (default run works, every row fails alone), for a column given as a fit coefficient (taken for one polynomial) and for a column as Brie constant (refused together, accepted alone). |
| C145 | Output rows carry the labels of their data rows | induction over the rows. | proved |
| C146 | A data key in the configuration has no effect | insertion overwrites; no reader looks at it. | proved |
| C147 | Key order does not matter | induction over the reordering relation; all readers depend on `get` only; error kind may differ (only which error is met first). | proved |
| C148 | Accepted configurations conform to the schema | schema as a tree in SchemaSpec, each reader proved sound and complete for it. | proved |
| C149 | An explicit type is honoured | the type check inside each alternative of the union. | proved |
| C150 | Leaving out a key is writing its default | insertion commutes with the added key; readers of the section agree. | proved |
| C151 | Documented configurations are accepted | `_refuted` through C148. | partial. Refuted: the tutorial, the fluids and dry rock sections of the getting-started page and the coefficients printed for expfit and logfit are refused. |
| C152 | Example configurations are accepted | evaluation of the readers on the trees with symbolic columns. | proved. Reading of types for the examples with columns; all validators for the two without. |
| C153 | A model without type is the default model | `_refuted`; proved which types can never be selected without `type`. | partial. Refuted: an empty dry rock model is patchy cement. Proved: without type never polyfit or expfit as pressure dependency, never polyfit as rock model without coefficients. |
| C154 | Accepted configurations can be calculated | `_refuted`: a fluid among the minerals. | partial. Refuted: minerals accept every MaterialType (minerals.py:29), a brine among them fails in the calculation. Proved: that is exactly when a configuration is accepted without a calculation, and no run on such a configuration succeeds. |
| C155 | Materials of a run are possible ones | `_refuted` with a concrete run. | partial. Refuted: ArbitraryMaterial overrides __post_init__ without the checks of Material; density -3, shear modulus -1 and velocity -2 complete with exit code 0. Proved: what is given is taken as it is, and exactly which numbers pass when the velocities are missing. |
| C156 | Pressure dependency scales as documented | inversion of the three divisions and the constructor. | proved |
| C157 | Coefficient lists must match | case analysis of the array built from the three lists. | proved |
| C158 | Calibration statistics | model of pandas alignment by label and of NaN-skipping reductions; induction over the results. | proved |
| C159 | Exit code after calibration | inversion of a run that writes, then of the four column accesses. | proved |
| C160 | Faults of the calibration file are reported as -4 | `_refuted`: a text column or undecodable bytes end with -1. | partial. Refuted: a column with text (TypeError) and undecodable bytes end with -1; exact condition proved for text. |
| C161 | Calibration rows must match the results | `_refuted` with a file without rows. | partial. Refuted: nothing compares the row counts (__main__.py:28-39). Proved what happens instead: the report depends only on the rows with a number on both sides. |
| C162 | A run calibrated against its own output has no error | labels by C145; `_refuted` in threshold mode. | partial. Proved for default runs. Refuted with a success threshold: the output numbers the remaining rows anew when read, so different rows are compared. |
| C163 | Calculating with nan changes nothing without nan | second model over `num := Num x | Nan` with comparisons false on nan; relational proof that each function simulates its real counterpart. | proved |
| C164 | Rows with nan do not disturb other rows | row framework of C71 once more over `num`; combined with C163. | proved |
| C165 | Only referenced columns matter | insertion depends on the columns referred to only, by induction over the configuration; then both modes of a run. | proved |
| C166 | A missing column is an input error | C65 and C66 carried to the exit code. | proved |
| C167 | Missing values only take values away | a relation between two runs, carried through every function of the calculation with nan. | proved |
| C168 | A missing mineral fraction is refused | numpy.isclose with nan is false. | proved |
| C169 | A missing value does not end the calculation | expected false: the early return of gassmann is taken by comparison. | partial. Refuted: where dry rock and mineral have the same bulk modulus, gassmann returns early unless the dry rock is nan; the division after it can be by zero (mineral as stiff as the fluid). |
| C170 | Numbers give numbers | expected false: roots of negative numbers. | partial. Refuted: a friable sand with more pore pressure than overburden pressure has nan moduli and no error (C171); NumPy roots of negative numbers are nan and no check looks for it. Proved: a nan among the results of numbers means the calculation left the real numbers on the way, so numbers give numbers wherever C207 applies. |
| C171 | Overpressured friable sand is nan | the cube root of a negative number is nan and nan passes every check. | proved |
| C172 | What is written is what is calculated | a printer for configurations, a relation for their meaning, reading and building proved inverse to the printer row by row. | proved |
| C173 | Ways of writing the same configuration | an inductive relation of rewritings; by induction on it, both sides have the same columns put in and are read as the same thing. | proved |
| C174 | Brine of negative salinity and oil heavier than 1080 kg/m3 are nan | on the model with nan: the polynomials at numbers are numbers, the square root decides; nan passes all guards and nan times zero is nan. | proved |
| C175 | No file changes but those named as output | induction over the arguments, which argparse acts on one by one; then the run only writes the output. | proved |
| C176 | The command line runs the program on the files named last | parsing in order determines namespace and disk; the run of MainModel on the texts read decides the rest. | proved |
| C177 | A failing run keeps the previous output | refuted: FileType("w") empties the file while the arguments are parsed. Exact: every run that ends before its output is written leaves the file empty; so does a rejected command line, if the mistake comes after the option. | partial. Refuted: the output file is emptied while the command line is parsed, so failing and rejected runs lose the previous results; exact condition proved. |
| C178 | A run leaves its input files as they were | refuted: named as output too, the file is emptied before it is read. Exact: with the configuration or data file as output every run fails and the file is lost. | partial. Refuted: a configuration or data file also named as output is emptied before it is read; the run then always fails and the file is lost. |
| C179 | Exit statuses | codes of run are 0 or -5 to -1 and 0 only after writing; modulo 256 they stay apart. | proved |
| C180 | Standard output of a successful run is the table | refuted: messages of failing rows come before the table. Exact: standard output is one message for each failing row, the table unless it goes to a file, and the statistics. | partial. Refuted: messages for failing rows precede the table on standard output; the exact output is proved. |
| C181 | The tutorial never overwrites | directly from the model of copytree and of the action. | proved |
| C182 | Velocities in double precision | each operation multiplies the error factor by at most 1 + 2^-53; the guard holds when K exceeds the accumulated error of 4/3 mu; counterexample K = 0, mu = 7, rho = 1 with correctly rounded roots. | partial. Refuted for a bulk modulus of zero: the guard on the velocities can reject by rounding; proved when mu <= 2^46 K. |
| C183 | Repacking in double precision | error factors, with the exact size of a difference of doubles; counterexample K = 0, mu = 1, rho = 2. | partial. Refuted for a bulk modulus of zero: repacking can refuse an accepted material; proved when mu <= 2^46 K. |
| C184 | Gassmann's equation in double precision | a difference of two different doubles is never zero and has relative error 2^-53; q <= 1 because rounding is monotone; counterexample Kdry = 1, Kmin = 10, Kf = 0. | partial. Refuted: rounding can make the saturated rock softer than the dry rock; the error bound, the upper bound and the absence of division by zero are proved. |
| C185 | Fluid substitution in double precision | composition of C182 and C184. | proved |
| C186 | Wood's mixture in double precision | error factors through sums of any length. | proved |
| C187 | Fractions written as decimals are accepted | bound on the error of the sum and of each comparison. | proved |
| C188 | The remaining fraction in double precision | error bound proved; the sign is refuted: 0.2, 0.4, 0.3 and 0.1 leave -2^-52. | partial. Refuted: the remaining fraction can be negative by rounding; the error bound is proved. |
| C189 | Bounds are the published ones | closed form of the code's expression, then field arithmetic. | proved |
| C190 | Friable sand is the published one | composition of C189 with the cubes of the Hertz-Mindlin moduli. | proved |
| C191 | Constant cement is the published one | composition of C189 with the contact cement equations. | proved |
| C192 | Patchy cement is the published one | composition of C189-C191; clipping by cases. | proved |
| C193 | From the command line to the output file | composition of C176 and C180 (command line), C68 (threshold) and C172 (meaning of a configuration). | proved |
| C194 | The Hashin-Shtrikman-Walpole bounds in double precision | error factors where all terms have one sign; otherwise 1/(v1-v2) - f/(v1+z) loses at most a factor M/Q = (v1+z)/((1-f)(v1+z)+f(v2+z)) <= c of its digits, and X T <= (c-1) K bounds the error against the result; counterexample K1 = 3, K2 = 0, f = 3/4. | partial. Refuted for a material without stiffness: rounding can make the bulk modulus of the mixture negative and the mixture is refused; proved when the moduli differ at most by the factor 2^40. |
| C195 | The text of a material determines it | the commas split the text; the guards of the constructor were passed when the material was first built. | proved |
| C196 | A configuration can be given by name | by position by computation; by keyword the decorator does not see the argument, and yaml takes the name for the text. | partial. Proved by position. Refuted by keyword: takes_stream looks at positional arguments only (__main__.py:73), a name is then parsed as YAML and refused. |
| C197 | Messages name the cause | containment of strings; the message for data files is a constant because the f in front of it is missing. | partial. Proved for marked YAML errors, columns and values. Refuted for data files: line 110 lacks the f prefix and prints {e} literally. |
| C198 | Rounding in the Hashin-Shtrikman bound and average | the denominator is a quotient of means that is at least 1/c, so cancellation costs a factor c; the rounded rest of the ratio moves the second bound by at most (c - 1) times the rounding. | partial. Proved for contrasts up to 2^40. Refuted beyond: with ratio 0 the result is k1 + (k2 - k1), which loses k2 when it is much smaller (hashin_shtrikman.py:75). |
| C199 | Missing values show in the results | backwards through every stage: a number comes from numbers; the exceptions (comparison with 0, equal moduli, power 0) are followed separately. | proved |
| C200 | Mistakes on the command line are refused | induction over the arguments: a parse that is accepted has none of the mistakes. | proved |
| C201 | Failures are explained | cases on every return code of run. | proved |
| C202 | A fluid with saturation zero has no effect | for positive bulk moduli C08; at zero by zero: every term is there if the sum is. | partial. Refuted for a fluid without stiffness: 0/0 is nan in NumPy, which takes the bulk modulus of the whole mixture (fluid.py:34-35). For positive bulk moduli it is C08_wood_drop_zero. |
| C203 | Logarithmic pressure dependency of overpressured rock is nan | the density of a row passes through every adjustment (as in C199) and the logarithm of a negative number is nan. | proved |
| C204 | Statuses of runs of the program | cases on the result of reading and calculating, through the command line (as C193). | proved |
| C205 | Values written in a configuration | cases on the value; lists by induction; reading a row of a matrix and a list by the same lemma on cells. | proved |
| C206 | Tables without rows | refuted: polynomials give no rows, the other fits refuse (C206_fits_refuse for all of them). | partial. Refuted: a polynomial dependency gives no rows for a table without rows, exponential, logarithmic and power fits raise (np.vectorize refuses size 0 with a new output dimension). C206_fits_refuse says so for all of them. |
| C207 | Loose sands are calculated | stage by stage: fractions, mineral mixture between its bounds (C34), Wood between its bounds, Hertz-Mindlin pack softer than the mineral when 2 n^2 (1-c)^2 mu^2 e <= 81 k^3, lower Hashin-Shtrikman bound below the mineral, Gassmann between dry rock and mineral; the run by C193; upper bounds of brine by bounding each power. | proved |
| C208 | Spellings of a command line | model of argparse's classification of words and its loop; the class of a word characterised by its letters (prefixes of the option names enumerated); induction over the words. | proved |
| C209 | Unknown options are refused | corollary of C208: what is not refused contains no such word; the emptied file by evaluation of the loop. | proved |
| C210 | Standard output by name | the argument leaves the namespace as it is when no output file was named before. | proved |
| C211 | Infinities do not change what real numbers give | InfModel; simulation as in EmbedProofs with the relation that a number reads as a real number. | proved |
| C212 | Which infinite materials are accepted | case analysis; the check of the velocities never fails for velocities that were derived. | proved |
| C213 | Pure pore as a number and as a column | refuted: the column's material is put together from velocities, which are infinite, and a density of zero; both ways characterised. | partial. Refuted: as a number, porosity one gives finite moduli (1600, 900) and a finite saturated rock of the fluid's density; as a column the moduli of both are nan without error. C213_number and C213_column say so for all minerals and fluids. |
| C214 | Fluids without bulk modulus in Wood's mixture | sums of nonnegative terms with infinities and nan; the first half is proved, the second refuted: 0/0 makes the mixture nan. | partial. Refuted for saturation zero: 0/0 makes the bulk modulus of the mixture nan (C214_absent, for all lists). Proved for the fluid that is present. |
| C215 | Logarithmic fits where a pressure is zero | log10 of zero is minus infinity; proved for growing fits at zero effective pressure, refuted for flat fits (nan) and for zero reference pressure (moduli zero). | partial. Refuted: a zero reference pressure makes the factors of the moduli zero and that of a constant density nan without error (C215_reference), a constant fit gives nan at zero effective pressure (C215_flat). Proved: growing fits are refused at zero effective pressure (C215_growing). |
| C216 | Power fits of rocks without shear velocity | vp/vs is infinite, its square less 4/3 too, and a number divided by infinity is zero. | proved |
| C217 | Arithmetic with infinities is that of the extended real line | compared with Coquelicot's Rbar, Rbar_plus', Rbar_mult', is_lim; it ties the arithmetic of InfModel to a specification that is not its own. | proved |
| C218 | Polynomials that do not depend on a property | refuted: polyval2d multiplies every argument by zero first, so an infinite or nan property (a mineral without density, say) makes every fit nan; proved for all coefficients. | partial. Refuted for infinite properties: polyval2d computes c + x*0, which is nan. C218_polynomials says so for all coefficients; for finite properties the claim is C211 with the real polynomial. |
| C219 | Bounds and sandstone models with infinities | InfSandModel repeats each function over infinities; agreement by simulation; it makes the theorems about real numbers theorems about the calculation. | proved |
| C220 | Grains that cannot carry a load are refused | refuted: with NumPy's numbers the moduli are nan and fluid substitution passes them on, density being right; Python's numbers raise ZeroDivisionError. | partial. Refuted: with NumPy's numbers such grains give nan moduli, a right density and no error (C220_nan for all minerals, pressures and numbers of contacts); C220_saturated: nor does fluid substitution notice. Python's numbers raise ZeroDivisionError (C220_python). |
| C221 | The classical bound of a fluid and a solid | first half proved for positive ratios and NumPy's numbers; second refuted: at ratio zero, and for two fluids, shear modulus and velocities are nan; Python's numbers raise ZeroDivisionError for all ratios. | partial. Refuted at ratio zero: shear modulus and velocities are nan (C221_nan, also for two fluids), and Python's numbers raise ZeroDivisionError for every ratio (C221_python). Proved: for positive ratios the bound is Reuss's average without shear modulus (C221_suspension). |
| C222 | Cemented grains without shear modulus | the stiffness of the contact is infinity to a negative power, or zero times infinity. | proved |
| C223 | Fluids of Batzle and Wang with infinities | InfFluidModel repeats each function over infinities, with Python's numbers or NumPy's where the code has them; agreement by simulation. | proved |
| C224 | Infinite conditions of fluids are refused | proved for gas (ZeroDivisionError); refuted for brine, water and oil, whose properties become nan without error. | partial. Refuted for brine and water (all of density, bulk modulus and velocities are nan, no error: C224_brine, for every infinite or nan temperature, pressure or salinity) and for oil of infinite gas-oil ratio (C224_oil). Proved for gas: ZeroDivisionError (C224_gas). |
| C225 | Warnings do not change results | WarnModel repeats the calculations with a list of warnings; erasing the list gives RowModel. | proved |
| C226 | Which warnings a run gives | log of l_calculate_results characterised row by row; bubble point stated from the paper's formula. | proved |
| C227 | Water outside 0 to 100 MPa is warned about | proved above 100 MPa with the pressure of the text; refuted for negative pressures and for brine after carbon dioxide. | partial. Refuted: a negative pressure passes silently (C227_negative_refuted), and brine at 150 MPa after carbon dioxide too, because it then sees 150 Pa (C227_missed_refuted). Proved: warned exactly above 100 MPa (C227_above, C227_brine). |
| C228 | The bubble point warning is about the pressure configured | proved without carbon dioxide; refuted when carbon dioxide comes before the oil and leaves the pressure divided by a million. | partial. Refuted: after carbon dioxide of Span and Wagner the pressure array has been divided by a million in place (fluid_model_providers.py:54), so oil far above its bubble point is warned about. Proved for fluids without carbon dioxide (C228_plain) and for every order with the pressure as left by the fluids before (C226_run). |
| C229 | Oil and gas at reservoir conditions are calculated | bounds on the volume factor (1.175th power), the pseudo density, the velocity and the compressibility factor; then the fluid is softer than any mineral. | proved |
| C230 | Reservoirs with brine, oil and gas are calculated | as C207, with the gas positions of the file, absent gases or liquids, and Brie's law between its two mixtures. | proved |
| C231 | Polynomials in double precision | error tracked relative to a magnitude (noisy), one rule per operation, induction over columns and rows; refuted as a relative error (cancellation). | partial. Error bound proved for all polynomials in range; Refuted as a relative error: terms can cancel so that a value that is not zero comes out as zero. |
| C232 | Brine in double precision | the rules of C231 in two and three variables with the magnitudes at 100 degrees and 100 MPa, lower bounds of density and velocity from C114. | proved |
| C233 | Hertz-Mindlin in double precision | Poisson's ratio as noise relative to one (C231), one minus it is at least a half; then relative errors of positive numbers; the rounded exponent costs as many roundings as the radius has binary digits. | proved |
| C234 | Friable sand in double precision | C233 for the pack, C194 for the bound of what was calculated; the exact bound is monotone and homogeneous, so that relative errors of the pack stay as they are, and errors of the share grow at most by k. | proved |
| C235 | Velocities of bounds in double precision | C194 for moduli and density; the quotient has at most twice their relative error and the root does not enlarge it, five roundings on top. | proved |
| C236 | The exponential fit in double precision | The rounding of p / c2 costs |p / c2| units after the exponential; then a product and a sum. The error below the normal doubles is carried as an absolute term. | proved |
| C237 | The logarithmic fit in double precision | A product and a sum, as C236. | proved |
| C238 | The power fit in double precision | A product of the power. | proved |
| C239 | Correction for pressure at the reference pressure in double precision | The quotient of equal values is exactly one, and a product with one is not rounded. The limit 1e-20 is itself rounded and lies between half and twice of it. | proved |
| C240 | Power fit at the reference pressure in double precision | The difference of equal values is exactly zero, and a sum with zero is not rounded. | proved |
| C241 | Correction for pressure at any pressure in double precision | Two roundings each; errors below the normal doubles are carried as an absolute term. | proved |
| C242 | Correction by the power fit at any pressure in double precision | Backward error of the shear modulus, since the difference with 4/3 can cancel. | proved |
| C243 | The polynomial fit in double precision | Horner from the highest power, related to that from the lowest (C231) by reversing the coefficients; the first step from zero is exact. | proved |
| C244 | Depth trends in double precision | C231 for each polynomial; making the material again keeps density and velocities exactly. | proved |

## 4. Not modelled

* pandas CSV reading/writing, YAML parsing (only the outcomes of these stages appear).
* argparse: CommandModel.v takes arguments as told apart; ArgvModel.v is argparse's reading of the words (abbreviations, `--x=v`, `-`) for CPython 3.8 to 3.11.  Left out: the word `--`, naming standard input twice, digits outside ASCII.  Links and several names of one file; a full disk.
* scipy's root finders and interpolators: `toms748` and `newton` and the interpolator giving the initial guess are parameters.
  `sound_root_finder` states what is assumed of toms748 (a returned value is a root inside the bracket; an
  empty bracket raises ValueError).  Convergence is not modelled; the real solver stops at a tolerance.
* sympy: the residual expression is a table of terms with derivative rules; C131 proves that the result is the derivative.
  An expression may be written differently by sympy, the value is the same real number.
* the numbers in the packaged npz table (only its grid).
* NumPy's own RuntimeWarnings about floating point (the program's warnings are in WarnModel), documentation.
* floating point rounding, except in C68, C70, C108 and C182-C188, C194 and C198, C231-C244 (FloatModel: material, velocities, Wood, Gassmann, fractions; FloatPolyModel: polynomials, brine; FloatSandModel: packs of grains, friable sand; FloatPressureModel, FloatPolyfitModel: fits to pressure; FloatDependencyModel: correction by them; FloatTrendModel: depth trends).  All other theorems are about exact arithmetic.
* complex numbers: a fractional power of a negative float ends the model with `NonFinite`.
* infinities: a division of a non-zero number by zero (NumPy) ends the model on real numbers and that of whole tables with
  `NonFinite`.  nan is modelled in NumModel and NanModel (`num := Num x | Nan`, comparisons with nan false); C163 and C164 connect
  this model with the one on real numbers.  InfModel has infinities and signed zeros for one row (materials, mixtures of fluids,
  Gassmann, polynomials, fits), InfSandModel for the bounds of Hashin and Shtrikman and the sandstone models; C211 and C219
  connect them with the real numbers.  InfFluidModel does so for the fluids of Batzle and Wang.  Not there: tables and carbon dioxide.

## 5. Findings

Each is a theorem about the model (`_refuted` = a property one would expect is false).

| what | where | theorem |
|---|---|---|
| Configured materials skip the guards of `Material`: negative density or moduli are accepted | config/material_type.py:18-30 | C04 |
| Saturations below 1e-15 or summing to zero do not normalise to one; lists of different length are silently truncated by `zip` | material/fluid.py:19-35 | C06, C09, C10 |
| Brie mixing takes the gas share as 1 - liquid, whatever the gas saturations | material/fluid.py:91-95 | C14 |
| A dry rock stiffer than its mineral is accepted and comes out softer | material/fluid.py:122-146 | C87 |
| Lower Walpole bound of solid and fluid works in one order, divides by zero in the other | material/hashin_shtrikman.py | C25, C26, C88, C89 |
| Mixing three or more minerals depends on their order | config/minerals.py | C36 |
| Friable sand at zero effective pressure always divides by zero | material/sandstone | C40 |
| Contact cement density weighs cement by radius ratio, mass is not conserved | material/sandstone | C44 |
| The cemented part of patchy cement always uses coordination number 9 | config/dry_rock model.py:322-334 | C103 |
| `fluid: null, rock: null` passes the pressure validator; with only `rock` given the fluid stays at 70 MPa | config/pressure.py:24-34 | C50, C51 |
| Negative velocity ratio accepted by the fits | config | C55 |
| Powerfit compares a fit at rock pore pressure with one at effective reference pressure | config | C56 |
| `eval_material` tests a bound method, so velocities are taken for moduli | model.py:67 | C57 |
| `max_depth` has no effect; coefficient indices are swapped against the documentation | depth_trend.py:39 | C58, C99 |
| Negative porosity is accepted | config | C63 |
| Own model as pressure dependency counts the pressure change twice | dry_rock.py:148 | C97 |
| Powerfit is documented as c1 + p^c2 and computed as c1*p^c2 | config | C100 |
| Default velocity ratio of the porosity fit is inadmissible above 0.36 | config | C102 |
| Unhashable column names raise TypeError | config | C65 |
| InputError escapes in threshold mode | __main__.py:180 | C69 |
| One success in ten rows counts as below a threshold of 10 (rounding) | __main__.py | C70 |
| UnicodeDecodeError ends with -1 instead of the input error code | __main__.py | C105 |
| Failing rows are dropped, not given as NaN as the help text says | __main__.py:183-202 | C106 |
| Threshold 0 with no success raises from `pd.concat` | __main__.py | C107 |
| `ideal_gas` is off by 1e12 (density) and 1e9 (bulk modulus) in its documented units | batzle_wang/ideal_gas.py | C113 |
| `water()` mixes g/cc and m/s | batzle_wang/water_properties.py:86-95 | C116 |
| Oil above 1080 kg/m3 gives nan, which passes the guards of `Material` | batzle_wang/oil_properties.py:318-338 | C117 |
| Dead oil density falls with pressure above about 100 MPa | batzle_wang/oil_properties.py:270-286 | C118 |
| Live oil density ignores pressure | batzle_wang/oil_properties.py:404-423 | C119 |
| Negative gas-oil ratio accepted | batzle_wang/oil_properties.py:485-523 | C120 |
| The fluid pressure of the input is divided by 1e6 in place for every Span-Wagner constituent: later constituents, and a second evaluation, see the wrong pressure; the result depends on the order of constituents | config/fluid_model_providers.py:54 | C73 |
| Carbon dioxide without `fluid_model` always raises NotImplementedError; its Span-Wagner default is dead code | config/fluids.py:87-95, material_type.py:114 | C74 |
| Condensate is accepted by the configuration but has no model | config/fluid_model_providers.py:22-27, 47-50 | C121 |
| A position listed twice in `brie_gases` turns the next constituent into a gas; positions out of range raise IndexError at evaluation | config/fluids.py:101-107 | C122 |
| Without a gas, Brie mixing is Wood mixing, not "first constituent is gas" | config/fluids.py:43-45, 65-70 | C123 |
| A plugin named `default` is silently overwritten | config/fluid_model_providers.py:90 | C124 |
| Fluid fractions summing to less than one are accepted | config/fluids.py:72-78 | C126 |
| A column of reference depths with a constant depth: in-place subtraction cannot grow the array | config/depth_trend.py:36-42 | C129 |
| Likewise a rock model as pressure dependency, or patchy cement, with a constant porosity and another column (`np.stack`, boolean mask) | config/model.py:242, 320; sandstone/patchy_cement.py:92-112 | C128, C129 (`combinable`) |
| A table without rows can fail, whereas row by row there is nothing to fail | __main__.py:42-66 | C71 |
| Negative porosity: saturated rock softer than dry rock | config/dry_rock.py:43 | C86 |
| Far below the triple point the density bracket is empty: ValueError from the root finder | span_wagner/carbon_dioxide.py:233-262, 331-369 | C84, C136 |
| Near the critical point the widened brackets of vapour and liquid overlap | span_wagner/carbon_dioxide.py:233-262 | C84 |
| At exactly the critical density or temperature the residual is taken at 1 - 1e-15 | span_wagner/carbon_dioxide.py:91-98 | C83, C131 (hypotheses) |
| The nudge off the critical point writes into the caller's arrays | span_wagner/carbon_dioxide.py:91-98 | C142 |
| `d_density=2` returns None instead of raising | span_wagner/carbon_dioxide.py:108-148 | C139 |
| Ideal-gas energy of several densities at one temperature returns the first only | span_wagner/carbon_dioxide.py:42-83 | C141 |
| The pressure grid of the array search is bounded by the highest temperature | span_wagner/carbon_dioxide.py:274-276 | C140 |
| The tutorial, two sections of the getting-started page and the coefficients printed for expfit and logfit are refused by the program | tutorial_config/tutorial_config.yaml:29-69, docs/getting_started_with_the_config_file_format.md:34-91, docs/adjusting_with_depth_and_pressure.md:97-118 | C151 |
| A list of numbers in the configuration goes with the rows in a default run and makes every row fail with a threshold | config/vector_type.py:16-30 | C144 |
| A column for a fit coefficient is silently taken for the coefficients of one polynomial | config/coefficients.py:15-62 | C144 |
| A column for the Brie constant is refused by a default run and accepted with a threshold | config/fluids.py:59 | C144 |
| `model: {}` is patchy cement, no `model` is polyfit; a pressure fit without `type` is never polyfit or expfit | config/model.py:337-346 | C153 |
| Oil, gas, brine, condensate and carbon dioxide are accepted as minerals and fail later | config/minerals.py:29 | C154 |
| Text in a calibration column ends with exit code -1 instead of -4 | __main__.py:166-173 | C160 |
| Calibration rows without partner are ignored, whatever their number | __main__.py:28-39, 161-165 | C161 |
| After a threshold run with failing rows, calibration compares different rows when the file comes from such a run | __main__.py:202-203, 163-165 | C162 |
| A missing cell can turn a row that calculates into a ZeroDivisionError of the whole run | material/fluid.py:114-146 | C169 |
| Friable sand with pore pressure above overburden pressure: moduli are nan, exit code 0, and with a threshold the row counts as a success | material/sandstone/hertz_mindlin.py:35-56 | C170, C171 |
| Brine with a negative salinity and oil with a reference density above 1080 kg/m³ have nan moduli, without an error; also live oil, since the dead oil enters with weight 0 and 0·nan is nan | brine_properties.py:153, oil_properties.py:331-335, 510-523 | C174_brine, C174_dead_oil, C174_oil |
| A failing run, or a rejected command line, empties an existing output file | __main__.py:316-321 | C177_refuted, C177_rejected_refuted, C177_emptied |
| An output file that is also the configuration or data file is emptied before it is read: the run fails and the input is lost | __main__.py:301-321 | C178_refuted, C178_lost_input |
| With a success threshold and no output file, the messages for failing rows stand before the table on standard output | __main__.py:140-150, 189 | C180_refuted, C180_stdout |
| A material with bulk modulus 0 can be rejected because of rounding | material.py:149-153 | C182 |
| An accepted material with bulk modulus 0 can be rejected when repacked | material.py:75-100 | C183 |
| Rounding can make the saturated rock softer than the dry rock | fluid.py:114-146 | C184 |
| Fractions 0.2, 0.4, 0.3, 0.1 leave the last mineral a negative fraction | constituent.py:89 | C188 |
| The mixture of a fluid and a material without stiffness can be refused because of rounding | hashin_shtrikman.py:166-172 | C194 |
| make_input(config_file="name.yml", ...) does not open the file | __main__.py:69-81 | C196 |
| The message for a malformed data file prints {e} instead of the cause | __main__.py:110 | C197 |
| hashin_shtrikman_bound with ratio 0 can lose the second material, and refuse it, because of rounding | hashin_shtrikman.py:75 | C198 |
| A fluid of saturation zero and bulk modulus zero makes the bulk modulus of the mixture nan | fluid.py:34-35 | C202 |
| A logarithmic pressure dependency of overpressured rock gives nan silently | config/model.py:130-136 | C203 |
| Brie gases counted from the end: -1 and -2 are the last and the last but two constituent, because list.pop shortens the list in between | config/fluids.py:102-107 | C122_two_from_the_end_refuted |
| Exponential, logarithmic and power fits raise for a table without rows, polynomials do not | config/model.py:114-118, 132-136, 177-181 | C206 |
| Option names mix dash and underscore; the other spelling is refused (status 2), after the output file has been emptied | __main__.py:303-337 | C209 |
| The default dry rock of porosity one: finite results for a number, nan without error for a column | material.py:76-100 | C213 |
| Logarithmic fits: zero reference pressure makes every dry rock one of zero moduli without error; constant fits give nan at zero effective pressure | config/model.py:31-55, 130-136 | C215 |
| Materials of NumPy numbers accept zero density, infinity and nan; those of Python's numbers raise ZeroDivisionError for zero density | material.py:114-179 | C212 |
| A polynomial fit is nan wherever the fitted property is infinite or nan, even if its coefficients do not depend on it | material.py:42-56 (numpy polyval2d) | C218 |
| Friable sand of grains without shear modulus, without contacts or with critical porosity one: nan moduli without error | sandstone/hertz_mindlin.py:35-56 | C220 |
| hashin_shtrikman_bound with a fluid first: nan shear modulus at ratio 0 or for two fluids, ZeroDivisionError for Python's numbers | hashin_shtrikman.py:49-90 | C221 |
| Contact cement without shear modulus: nan moduli without error | sandstone/contact_cement.py | C222 |
| Brine and water at infinite temperature, pressure or salinity, and oil of infinite gas-oil ratio, are accepted with nan for density and bulk modulus; gas raises ZeroDivisionError | batzle_wang/brine_properties.py, water_properties.py, oil_properties.py | C224 |
| Negative pressure of water is not warned about though the text says outside [0,100] MPa | batzle_wang/water_properties.py:70-75 | C227 |
| After carbon dioxide, oil above its bubble point is warned about and brine above 100 MPa is not: the pressure was divided by a million in place | config/fluid_model_providers.py:54 | C227, C228 |
| In double precision a fitted polynomial whose terms cancel can come out as zero though it is not | material/material.py: polyval_material | C231 |

## 6. Axioms per theorem

From `Print Assumptions`. D1 = `ClassicalDedekindReals.sig_forall_dec`, D2 = `ClassicalDedekindReals.sig_not_dec`, F = `FunctionalExtensionality.functional_extensionality_dep`, C = `Classical_Prop.classic`; all four belong to the standard library. `-` = closed under the global context.

| theorem | axioms |
|---|---|
| C01_moduli_roundtrip | D1 D2 F |
| C02_accepted_keeps_arguments | D1 D2 F |
| C03_negative_density_rejected | D1 D2 F |
| C04_config_material_agrees | D1 D2 F |
| C05_impedance | D1 D2 F |
| C39_density_and_shear_reduction | C D1 D2 F |
| C40_zero_pressure | C D1 D2 F |
| C41_friable_pressure | C D1 D2 F |
| C42_radius_ratio_rejects | D1 D2 F |
| C43_contact_cement_accepts | C D1 D2 F |
| C45_constant_cement_ends | C D1 D2 F |
| C47_patchy_density | C D1 D2 F |
| C48_murphy_table | D1 F |
| C92_patchy_pressure | C D1 D2 F |
| C94_frictionless_cement | C D1 D2 F |
| C96_unit_of_stiffness_friable | C D1 D2 F |
| C06_wood_between_zero_total_refuted | D1 D2 F |
| C07_wood_scale | D1 D2 F |
| C08_wood_drop_zero | D1 D2 F |
| C10_wood_mismatched_lengths_refuted | D1 D2 F |
| C11_brie_law | C D1 D2 F |
| C13_brie_mass | C D1 D2 F |
| C16_saturated_between | D1 D2 F |
| C17_decreasing_in_porosity | D1 D2 F |
| C20_outcomes | D1 D2 F |
| C21_fluid_determined | D1 D2 F |
| C49_truncation | D1 F |
| C50_validator | - |
| C51_rock_only_refuted | D1 F |
| C52_adjustment_identity | C D1 D2 F |
| C54_rejected | C D1 D2 F |
| C56_refuted | C D1 D2 F |
| C58_refuted | D1 F |
| C59_identity_depth_trend | C D1 D2 F |
| C60_one_and_none | C D1 D2 F |
| C61_defaults_filled | D1 F |
| C62_patchy_validator | D1 F |
| C97_refuted | C D1 D2 F |
| C98_velocity_polynomial | D1 D2 F |
| C100_expfit | C D1 D2 F |
| C100_powerfit_partial | C D1 D2 F |
| C102_valid_up_to_partial | C D1 D2 F |
| C103_defaults | D1 F |
| C104_solid_rock | D1 D2 F |
| C157_refused | C D1 D2 F |
| C22_ratio_outside_rejected | D1 D2 F |
| C23_walpole_between_any | D1 D2 F |
| C25_endpoints | D1 D2 F |
| C26_symmetric_fluid_refuted | D1 D2 F |
| C29_average_symmetric | D1 D2 F |
| C31_more_stiff_is_stiffer | D1 D2 F |
| C89_fluid_second | D1 D2 F |
| C32_fraction_completion_outcome | D1 F |
| C35_zero_fraction_no_effect | D1 D2 F |
| C36_mineral_order_refuted | D1 D2 F |
| C64_insertion | - |
| C65_unhashable_name_refuted | D1 |
| C105_undecodable_refuted | C D1 D2 F |
| C68_true_percentage_partial | C D1 D2 F |
| C69_refuted | C D1 D2 F |
| C70_never_lenient | C D1 D2 F |
| C107_no_success_refuted | C D1 D2 F |
| C77_blend | C D1 D2 F |
| C78_fresh_brine | D1 D2 F |
| C81_bubble_point | C D1 D2 F |
| C109_live_oil | C D1 D2 F |
| C110_gas | C D1 D2 F |
| C113_documented_units_refuted | D1 D2 F |
| C115_brine_denser_with_salinity | D1 D2 F |
| C118_pressure_partial | C D1 D2 F |
| C118_temperature | C D1 D2 F |
| C119_temperature | C D1 D2 F |
| C73_pressure_seen | C D1 D2 F |
| C73_second_evaluation_refuted | C D1 D2 F |
| C74_default_model_refuted | C D1 D2 F |
| C75_brie_gases | C D1 D2 F |
| C121_condensate_fails | C D1 D2 F |
| C122_out_of_range | C D1 D2 F |
| C124_plugins_reachable_partial | - |
| C125_sections_accepted | D1 F |
| C127_own_model_wins | C D1 D2 F |
| C71_error_kind | C D1 D2 F |
| C86_ordering_row | C D1 D2 F |
| C128_combinable | C D1 D2 F |
| C130_selection | C D1 D2 F |
| C82_ideal_tau_derivative | C D1 D2 F |
| C83_pressure_derivative | C D1 D2 F |
| C84_above_critical | C D1 D2 F |
| C84_overlap_refuted | C D1 D2 F |
| C85_outside | D1 F |
| C131_residual_delta_derivative | C D1 D2 F |
| C132_isentropic | C D1 D2 F |
| C134_ideal_gas_limit | C D1 D2 F |
| C135_ends | C D1 D2 F |
| C135_vapor_pressure_increasing | C D1 D2 F |
| C136_density_solves | C D1 D2 F |
| C137_provider | C D1 D2 F |
| C138_outside_no_density | C D1 D2 F |
| C140_accepted_rows | C D1 D2 F |
| C140_high_pressure | C D1 D2 F |
| C141_derivatives | C D1 D2 F |
| C142_arguments_changed_refuted | C D1 D2 F |
| C144_modes | C D1 D2 F |
| C144_literal_lists_refuted | C D1 D2 F |
| C145_labels | C D1 D2 F |
| C147_key_order | C D1 D2 F |
| C148_unknown_section | D1 D2 F |
| C150_defaults | C D1 D2 F |
| C151_refused | D1 D2 F |
| C152_without_data | D1 D2 F |
| C154_refuted | C D1 D2 F |
| C158_complete | D1 F |
| C160_text_refuted | C D1 D2 F |
| C161_other_cells | D1 F |
| C162_threshold_refuted | C D1 D2 F |
| C163_coordination | D1 F |
| C164_untouched | C D1 D2 F |
| C167_holes | C D1 D2 F |
| C170_numbers_refuted | C D1 D2 F |
| C174_dead_oil | C D1 D2 F |
| C172_meant_is_output | C D1 D2 F |
| C207_row | C D1 D2 F |
| C207_plain | C D1 D2 F |
| C176_command | C D1 D2 F |
| C177_refuted | C D1 D2 F |
| C178_refuted | C D1 D2 F |
| C179_not_rejected | C D1 D2 F |
| C181_tutorial | C D1 D2 F |
| C183_repack | C D1 D2 F |
| C184_softer_refuted | C D1 D2 F |
| C186_zero_saturations | C D1 D2 F |
| C188_rest | C D1 D2 F |
| C189_upper | D1 D2 F |
| C190_friable | C D1 D2 F |
| C191_constant_cement | C D1 D2 F |
| C193_meant | C D1 D2 F |
| C204_statuses | C D1 D2 F |
| C10_extra_fluids | D1 D2 F |
| C14_liquid_scale | C D1 D2 F |
| C57_values | C D1 D2 F |
| C105_config | C D1 D2 F |
| C116_exactly | D1 D2 F |
| C140_start | D1 F |
| C195_rebuilds | D1 D2 F |
| C196_keyword_refuted | - |
| C197_csv_refuted | - |
| C198_contrast_refuted | C D1 D2 F |
| C199_saturated_bulk | C D1 D2 F |
| C201_silent | C D1 D2 F |
| C202_no_effect_refuted | D1 D2 F |
| C205_array | D1 |
| C206_fits_refuse | C D1 D2 F |
| C122_two_from_the_end_refuted | C D1 D2 F |
| C154_exactly | D1 D2 F |
| C155_exactly | D1 D2 F |
| C208_only | C D1 D2 F |
| C209_dash_or_underscore | - |
| C210_standard_output | C D1 D2 F |
| C211_substitution | D1 D2 F |
| C212_accepted | D1 D2 F |
| C213_number | D1 D2 F |
| C213_same_refuted | D1 D2 F |
| C214_unused_refuted | D1 D2 F |
| C215_reference | C D1 D2 F |
| C219_bounds | D1 D2 F |
| C219_zero_pressure | C D1 D2 F |
| C220_saturated | C D1 D2 F |
| C221_nan | D1 D2 F |
| C222_soft_grains | C D1 D2 F |
| C223_oil | C D1 D2 F |
| C224_brine | D1 D2 F |
| C225_results | C D1 D2 F |
| C226_run | C D1 D2 F |
| C227_above | D1 F |
| C227_missed_refuted | C D1 D2 F |
| C228_monotone | C D1 D2 F |
| C217_by_zero | D1 F |
| C217_exp | C D1 D2 F |
| C217_power | C D1 D2 F |
| C218_polynomials | D1 F |
| C229_gas | C D1 D2 F |
| C231_polynomial | C D1 D2 F |
| C233_hertz_mindlin | C D1 D2 F |
| C236_exponential_fit | C D1 D2 F |
| C239_moduli | C D1 D2 F |
| C240_power_fit | C D1 D2 F |
| C01_velocities_roundtrip | D1 D2 F |
| C03_moduli_accepted_iff | D1 D2 F |
| C03_missing_data_rejected | D1 D2 F |
| C05_poisson | D1 D2 F |
| C38_cube_root_law | C D1 D2 F |
| C40_friable_endpoints | C D1 D2 F |
| C40_endpoints_refuted | C D1 D2 F |
| C42_radius_ratio_range | D1 D2 F |
| C42_radius_ratio_square | D1 D2 F |
| C44_mass_refuted | C D1 D2 F |
| C45_constant_cement_between | C D1 D2 F |
| C48_murphy_positive | D1 F |
| C90_handbook_formula | C D1 D2 F |
| C93_patchy_at_lower_pressure | C D1 D2 F |
| C95_published_contact_cement | C D1 D2 F |
| C96_unit_of_stiffness_patchy | C D1 D2 F |
| C06_wood_between_tiny_total_refuted | D1 D2 F |
| C08_wood_conserves | D1 D2 F |
| C09_saturations_sum_to_one_iff | D1 F |
| C11_brie_between | C D1 D2 F |
| C12_brie_rejects_and_degenerates | C D1 D2 F |
| C14_brie_scale_refuted | C D1 D2 F |
| C17_increasing_in_fluid | D1 D2 F |
| C18_dense_rock_ignores_fluid | D1 D2 F |
| C20_stiff_fluid | D1 D2 F |
| C21_resaturation | D1 D2 F |
| C49_antitone | D1 F |
| C51_rock_defaults_to_fluid | D1 |
| C51_defaults | D1 |
| C53_composition | C D1 D2 F |
| C55_powerfit | C D1 D2 F |
| C56_identity_at_effective_reference | C D1 D2 F |
| C58_max_depth_is_ignored | C D1 D2 F |
| C59_constant_polynomial | D1 D2 F |
| C60_error_aborts | C D1 D2 F |
| C61_flavoured_defaults | D1 F |
| C63_refuted | D1 F |
| C97_counted_twice | C D1 D2 F |
| C99_depth_trend_partial | C D1 D2 F |
| C100_logfit | C D1 D2 F |
| C100_powerfit_documented_refuted | C D1 D2 F |
| C102_exactly_when | C D1 D2 F |
| C103_cement_coordination_refuted | C D1 D2 F |
| C156_scaling | C D1 D2 F |
| C157_short | C D1 D2 F |
| C22_unknown_bound_rejected | D1 D2 F |
| C24_lower_le_upper | D1 D2 F |
| C25_endpoint_fluid_refuted | D1 D2 F |
| C27_self_mix | D1 D2 F |
| C29_average_between | D1 D2 F |
| C88_walpole_of_fluids_is_wood | D1 D2 F |
| C89_fluid_second_absent | D1 D2 F |
| C33_mineral_density | D1 D2 F |
| C36_two_minerals_commute | D1 D2 F |
| C37_minerals_accepted_iff | D1 F |
| C64_unchanged | - |
| C66_no_data | - |
| C68_threshold_output | C D1 D2 F |
| C68_needs_data | C D1 D2 F |
| C70_refuted | C D1 D2 F |
| C72_percentage | D1 F |
| C107_success | C D1 D2 F |
| C77_defined | C D1 D2 F |
| C79_derivative | C D1 D2 F |
| C81_scaling | C D1 D2 F |
| C109_brine | D1 D2 F |
| C111_gas_denser_with_pressure | C D1 D2 F |
| C113_actual_units | D1 D2 F |
| C116_water_units_refuted | D1 D2 F |
| C118_pressure_iff | C D1 D2 F |
| C119_pressure_refuted | C D1 D2 F |
| C120_negative_gor_refuted | C D1 D2 F |
| C73_input_modified_refuted | C D1 D2 F |
| C73_no_carbon_dioxide_partial | C D1 D2 F |
| C74_unsupported_constituents | C D1 D2 F |
| C76_collisions | - |
| C122_listed_gases_partial | C D1 D2 F |
| C123_no_gas | C D1 D2 F |
| C124_default_plugin_refuted | - |
| C125_section_contents | D1 F |
| C71_rows | C D1 D2 F |
| C71_empty_table_refuted | C D1 D2 F |
| C86_negative_porosity_refuted | C D1 D2 F |
| C129_refuted | C D1 D2 F |
| C82_ideal_value | C D1 D2 F |
| C82_ideal_orders | C D1 D2 F |
| C84_phase | C D1 D2 F |
| C84_bracket_nonempty | C D1 D2 F |
| C85_node | D1 F |
| C85_made | - |
| C131_residual_tau_derivative | C D1 D2 F |
| C133_isentropic_stiffer | C D1 D2 F |
| C135_published_densities | C D1 D2 F |
| C135_vapor_density_increasing | C D1 D2 F |
| C135_sublimation_pressure_increasing | C D1 D2 F |
| C136_cold_refuted | C D1 D2 F |
| C138_packaged_inside | D1 F |
| C139_temperature_derivative | C D1 D2 F |
| C140_array_rows | C D1 D2 F |
| C140_valid_pressure_refuted | C D1 D2 F |
| C141_mixed_derivative | D1 |
| C142_arguments_kept_partial | C D1 D2 F |
| C144_succeeding | C D1 D2 F |
| C144_coefficient_column_refuted | C D1 D2 F |
| C145_threshold_labels | C D1 D2 F |
| C148_schema | C D1 D2 F |
| C148_exact | D1 F |
| C150_sections | C D1 D2 F |
| C151_tutorial_sections | D1 D2 F |
| C153_untyped | D1 F |
| C155_refuted | C D1 D2 F |
| C158_zero_values | D1 F |
| C160_text | C D1 D2 F |
| C161_other_results | D1 F |
| C163_agrees | C D1 D2 F |
| C164_rows | C D1 D2 F |
| C165_columns | C D1 D2 F |
| C168_mineral_fraction | C D1 D2 F |
| C171_overpressure | C D1 D2 F |
| C174_oil | C D1 D2 F |
| C172_no_data | C D1 D2 F |
| C207_run | C D1 D2 F |
| C173_rewritten | C D1 D2 F |
| C176_options | C D1 D2 F |
| C177_rejected_refuted | C D1 D2 F |
| C179_status | C D1 D2 F |
| C180_stdout | C D1 D2 F |
| C182_velocities | C D1 D2 F |
| C183_repack_refuted | C D1 D2 F |
| C185_substitution | C D1 D2 F |
| C187_decimals | C D1 D2 F |
| C188_negative_refuted | C D1 D2 F |
| C189_first | D1 D2 F |
| C190_softer_pack | C D1 D2 F |
| C192_patchy_cement | C D1 D2 F |
| C193_threshold | C D1 D2 F |
| C194_walpole | C D1 D2 F |
| C10_extra_saturations | D1 D2 F |
| C50_exactly | D1 |
| C57_velocities | C D1 D2 F |
| C105_data | C D1 D2 F |
| C126_accepts | D1 F |
| C140_start_inside | D1 F |
| C196_by_position | - |
| C197_quoted | - |
| C198_bound | C D1 D2 F |
| C199_density | C D1 D2 F |
| C200_rejected | C D1 D2 F |
| C99_missing_coefficients | C D1 D2 F |
| C203_log_fit | C D1 D2 F |
| C205_whole_number | D1 F |
| C206_no_rows_refuted | C D1 D2 F |
| C125_own_models | D1 F |
| C154_fluid_minerals | C D1 D2 F |
| C170_outside | C D1 D2 F |
| C208_information | C D1 D2 F |
| C209_emptied | C D1 D2 F |
| C211_materials | D1 D2 F |
| C211_dry_rock | D1 D2 F |
| C212_python | D1 D2 F |
| C213_column | D1 D2 F |
| C214_present | D1 D2 F |
| C215_growing | C D1 D2 F |
| C215_refused_refuted | C D1 D2 F |
| C219_sand | C D1 D2 F |
| C220_nan | C D1 D2 F |
| C220_refused_refuted | C D1 D2 F |
| C221_python | D1 D2 F |
| C222_soft_cement | C D1 D2 F |
| C223_brine | D1 D2 F |
| C224_oil | C D1 D2 F |
| C225_fluids | C D1 D2 F |
| C226_rows | C D1 D2 F |
| C227_brine | D1 D2 F |
| C228_plain | C D1 D2 F |
| C228_refuted | C D1 D2 F |
| C217_signs | D1 F |
| C217_log | C D1 D2 F |
| C217_power_negative | C D1 D2 F |
| C218_constant_refuted | D1 F |
| C230_row | C D1 D2 F |
| C231_relative_refuted | C D1 D2 F |
| C234_friable_sand | C D1 D2 F |
| C237_logarithmic_fit | C D1 D2 F |
| C239_velocities | C D1 D2 F |
| C02_accepted_admissible | D1 D2 F |
| C03_velocities_accepted_iff | D1 D2 F |
| C04_config_material_admissible_refuted | D1 D2 F |
| C05_poisson_fluid | D1 D2 F |
| C38_increasing_in_pressure | C D1 D2 F |
| C40_friable_density | C D1 D2 F |
| C41_friable_between | C D1 D2 F |
| C42_radius_ratio_antitone | D1 D2 F |
| C43_contact_cement_rejects | C D1 D2 F |
| C44_mass_characterised | C D1 D2 F |
| C46_patchy_between | C D1 D2 F |
| C48_murphy_decreasing | D1 F |
| C91_friable_softens_with_porosity | C D1 D2 F |
| C94_frictionless_pack | C D1 D2 F |
| C96_unit_of_stiffness_walpole | D1 D2 F |
| C06_wood_between | D1 D2 F |
| C07_wood_order | D1 D2 F |
| C08_wood_pure | D1 D2 F |
| C09_saturations_sum_to_one_refuted | D1 F |
| C11_brie_grows_with_liquid | C D1 D2 F |
| C12_brie_accepts | C D1 D2 F |
| C15_gassmann | D1 D2 F |
| C17_increasing_in_dry | D1 D2 F |
| C19_shear_and_density | D1 D2 F |
| C20_negative_porosity | D1 D2 F |
| C87_never_softer_than_dry_refuted | D1 D2 F |
| C50_refuted | D1 |
| C51_null_fluid_defaults_to_rock | D1 |
| C52_identity_at_reference | C D1 D2 F |
| C54_vanishing_reference | C D1 D2 F |
| C55_negative_ratio_refuted | C D1 D2 F |
| C57_refuted | C D1 D2 F |
| C59_identity_polynomial | D1 D2 F |
| C60_adjustments_in_order | C D1 D2 F |
| C60_dry_rock_is_adjusted_model | C D1 D2 F |
| C62_friable_validator | D1 F |
| C63_accepted_by_every_model | D1 F |
| C98_moduli_polynomial | D1 D2 F |
| C99_documented_indices_refuted | C D1 D2 F |
| C100_polyfit | C D1 D2 F |
| C101_default_dry_rock | C D1 D2 F |
| C102_refuted | C D1 D2 F |
| C104_zero_porosity | C D1 D2 F |
| C156_accepted | C D1 D2 F |
| C22_ratio_check | D1 F |
| C23_walpole_between | D1 D2 F |
| C24_lower_le_upper_any | D1 D2 F |
| C26_symmetric | D1 D2 F |
| C28_classical_bound | D1 D2 F |
| C30_reuss_voigt | D1 D2 F |
| C89_fluid_first | D1 D2 F |
| C32_fraction_completion | D1 F |
| C34_mineral_range | D1 D2 F |
| C36_equal_shear_commute | D1 D2 F |
| C37_minerals_result | D1 F |
| C65_missing_column | - |
| C67_exit_codes | C D1 D2 F |
| C68_rows_split | - |
| C69_escapes | C D1 D2 F |
| C70_integer_threshold_partial | C D1 D2 F |
| C106_nan_rows_refuted | C D1 D2 F |
| C108_extreme_thresholds | C D1 D2 F |
| C77_ends | C D1 D2 F |
| C80_real_gas_law | C D1 D2 F |
| C109_dead_oil | C D1 D2 F |
| C109_water | D1 D2 F |
| C112_gas_zero_pressure | C D1 D2 F |
| C114_brine_usable | D1 D2 F |
| C117_heavy_oil | C D1 D2 F |
| C118_high_pressure_refuted | C D1 D2 F |
| C119_pressure_ignored | C D1 D2 F |
| C73_pressure_after | C D1 D2 F |
| C73_order_refuted | C D1 D2 F |
| C73_order_partial | C D1 D2 F |
| C74_named_partial | C D1 D2 F |
| C121_condensate_refuted | C D1 D2 F |
| C122_listed_twice_refuted | C D1 D2 F |
| C123_first_is_gas_refuted | C D1 D2 F |
| C124_shipped | - |
| C126_incomplete_fractions_refuted | C D1 D2 F |
| C71_failures | C D1 D2 F |
| C86_ordering | C D1 D2 F |
| C128_rows_are_scalar | C D1 D2 F |
| C129_partial | C D1 D2 F |
| C82_ideal_delta_derivative | C D1 D2 F |
| C83_pressure_from_energy | C D1 D2 F |
| C84_below_triple | C D1 D2 F |
| C84_empty_bracket_refuted | C D1 D2 F |
| C85_nearest | D1 F |
| C131_residual_value | C D1 D2 F |
| C131_residual_orders | C D1 D2 F |
| C133_low_density | C D1 D2 F |
| C135_published_pressures | C D1 D2 F |
| C135_liquid_density_decreasing | C D1 D2 F |
| C135_melting_pressure_increasing | D1 F |
| C137_material | C D1 D2 F |
| C138_packaged_outside | D1 F |
| C139_second_derivative_refuted | C D1 D2 F |
| C140_array_bounds | C D1 D2 F |
| C141_rows_partial | C D1 D2 F |
| C141_rows_refuted | C D1 D2 F |
| C143_rows_alone | C D1 D2 F |
| C144_one_length | D1 |
| C144_brie_column_refuted | C D1 D2 F |
| C146_data_key | C D1 D2 F |
| C148_row_schema | C D1 D2 F |
| C149_types | D1 F |
| C151_refuted | D1 D2 F |
| C152_examples | D1 F |
| C153_refuted | D1 F |
| C158_statistics | D1 F |
| C159_exit_codes | C D1 D2 F |
| C161_row_count_refuted | C D1 D2 F |
| C162_own_output | C D1 D2 F |
| C163_water | D1 D2 F |
| C164_failures | C D1 D2 F |
| C166_missing_column | C D1 D2 F |
| C169_missing_value_refuted | C D1 D2 F |
| C174_brine | D1 D2 F |
| C172_output_is_meant | C D1 D2 F |
| C172_one_output | C D1 D2 F |
| C207_brine | D1 D2 F |
| C175_only_named_files | C D1 D2 F |
| C177_emptied | C D1 D2 F |
| C178_lost_input | C D1 D2 F |
| C179_success_writes | C D1 D2 F |
| C180_refuted | C D1 D2 F |
| C182_zero_bulk_refuted | C D1 D2 F |
| C184_gassmann | C D1 D2 F |
| C186_wood | C D1 D2 F |
| C187_tolerance | C D1 D2 F |
| C189_lower | D1 D2 F |
| C189_unique | D1 F |
| C190_pack | C D1 D2 F |
| C193_success | C D1 D2 F |
| C193_split | C D1 D2 F |
| C194_no_stiffness_refuted | C D1 D2 F |
| C14_gas_scale | C D1 D2 F |
| C50_unusable | D1 F |
| C87_exactly | D1 D2 F |
| C106_written | C D1 D2 F |
| C50_accepted | D1 |
| C195_text_determines | - |
| C196_by_keyword | - |
| C197_csv_constant | - |
| C198_average | C D1 D2 F |
| C199_mineral_bulk | C D1 D2 F |
| C201_message | C D1 D2 F |
| C202_zero_by_zero | D1 D2 F |
| C205_number | D1 |
| C205_yes_or_no | D1 F |
| C122_one_from_the_end | C D1 D2 F |
| C120_exactly | C D1 D2 F |
| C155_taken | D1 D2 F |
| C208_spelling | C D1 D2 F |
| C209_foreign | C D1 D2 F |
| C209_ambiguous | C D1 D2 F |
| C211_mixtures | C D1 D2 F |
| C211_pressure | C D1 D2 F |
| C212_zero_density | D1 D2 F |
| C213_default | D1 |
| C214_absent | D1 D2 F |
| C215_flat | C D1 D2 F |
| C216_no_shear | C D1 D2 F |
| C219_cement | C D1 D2 F |
| C220_python | C D1 D2 F |
| C221_suspension | D1 D2 F |
| C221_endpoint_refuted | D1 D2 F |
| C223_gas | C D1 D2 F |
| C224_gas | C D1 D2 F |
| C224_infinite_refuted | D1 D2 F |
| C225_printed | D1 F |
| C226_adjustments | C D1 D2 F |
| C227_negative_refuted | D1 D2 F |
| C228_dead | C D1 D2 F |
| C217_arithmetic | D1 F |
| C217_order | D1 F |
| C217_root | D1 D2 F |
| C217_power_python | C D1 D2 F |
| C229_oil | C D1 D2 F |
| C230_run | C D1 D2 F |
| C232_brine | C D1 D2 F |
| C235_bound_velocities | C D1 D2 F |
| C238_power_fit | C D1 D2 F |
| C239_zero | C D1 D2 F |
| C241_moduli | C D1 D2 F |
| C243_polynomial_fit | C D1 D2 F |
| C244_arrays | C D1 D2 F |
| C241_velocities | C D1 D2 F |
| C244_velocities | C D1 D2 F |
| C242_power_fit | C D1 D2 F |
| C244_moduli | C D1 D2 F |
