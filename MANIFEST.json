{
 "claims": [
  {
   "property": "C01",
   "status": "proved",
   "theorems": [
    "C01_moduli_roundtrip",
    "C01_velocities_roundtrip"
   ],
   "note": ""
  },
  {
   "property": "C02",
   "status": "proved",
   "theorems": [
    "C02_accepted_admissible",
    "C02_accepted_keeps_arguments"
   ],
   "note": ""
  },
  {
   "property": "C03",
   "status": "proved",
   "theorems": [
    "C03_moduli_accepted_iff",
    "C03_velocities_accepted_iff",
    "C03_negative_density_rejected",
    "C03_missing_data_rejected"
   ],
   "note": ""
  },
  {
   "property": "C04",
   "status": "partial",
   "theorems": [
    "C04_config_material_admissible_refuted",
    "C04_config_material_agrees"
   ],
   "note": "Refuted: configured materials skip every guard (material_type.py:26-27). The agreement theorem is what remains true."
  },
  {
   "property": "C05",
   "status": "proved",
   "theorems": [
    "C05_poisson",
    "C05_poisson_fluid",
    "C05_impedance"
   ],
   "note": ""
  },
  {
   "property": "C06",
   "status": "partial",
   "theorems": [
    "C06_wood_between",
    "C06_wood_between_zero_total_refuted",
    "C06_wood_between_tiny_total_refuted"
   ],
   "note": "Proved whenever the saturations are non-negative with total >= 1e-15. Refuted at smaller totals: all-zero saturations give every constituent weight one, totals in (0,1e-15) are divided by 1e-15 (fluid.py:19-25)."
  },
  {
   "property": "C07",
   "status": "proved",
   "theorems": [
    "C07_wood_order",
    "C07_wood_scale"
   ],
   "note": ""
  },
  {
   "property": "C08",
   "status": "proved",
   "theorems": [
    "C08_wood_conserves",
    "C08_wood_pure",
    "C08_wood_drop_zero"
   ],
   "note": ""
  },
  {
   "property": "C09",
   "status": "partial",
   "theorems": [
    "C09_saturations_sum_to_one_iff",
    "C09_saturations_sum_to_one_refuted"
   ],
   "note": "Refuted: an exact iff is proved; the sum is not one for an all-zero list of length >= 2 nor for totals in (0,1e-15)."
  },
  {
   "property": "C10",
   "status": "partial",
   "theorems": [
    "C10_wood_mismatched_lengths_refuted",
    "C10_extra_fluids",
    "C10_extra_saturations"
   ],
   "note": "Refuted: zip silently truncates (fluid.py:28-35). Proved what happens instead: surplus fluids are dropped, surplus saturations scale bulk modulus up and density down."
  },
  {
   "property": "C11",
   "status": "proved",
   "theorems": [
    "C11_brie_between",
    "C11_brie_grows_with_liquid",
    "C11_brie_law"
   ],
   "note": ""
  },
  {
   "property": "C12",
   "status": "proved",
   "theorems": [
    "C12_brie_rejects_and_degenerates",
    "C12_brie_accepts"
   ],
   "note": ""
  },
  {
   "property": "C13",
   "status": "proved",
   "theorems": [
    "C13_brie_mass"
   ],
   "note": ""
  },
  {
   "property": "C14",
   "status": "partial",
   "theorems": [
    "C14_brie_scale_refuted",
    "C14_gas_scale",
    "C14_liquid_scale"
   ],
   "note": "Refuted: Brie does not normalise, gas weight is 1 - sum(liquid) whatever the gas saturations (fluid.py:91-95). Proved: scaling the gas saturations has no effect; the formula after scaling the liquid ones."
  },
  {
   "property": "C15",
   "status": "proved",
   "theorems": [
    "C15_gassmann"
   ],
   "note": ""
  },
  {
   "property": "C16",
   "status": "proved",
   "theorems": [
    "C16_saturated_between"
   ],
   "note": ""
  },
  {
   "property": "C17",
   "status": "proved",
   "theorems": [
    "C17_increasing_in_fluid",
    "C17_increasing_in_dry",
    "C17_decreasing_in_porosity"
   ],
   "note": ""
  },
  {
   "property": "C18",
   "status": "proved",
   "theorems": [
    "C18_dense_rock_ignores_fluid"
   ],
   "note": ""
  },
  {
   "property": "C19",
   "status": "proved",
   "theorems": [
    "C19_shear_and_density"
   ],
   "note": ""
  },
  {
   "property": "C20",
   "status": "proved",
   "theorems": [
    "C20_outcomes",
    "C20_stiff_fluid",
    "C20_negative_porosity"
   ],
   "note": ""
  },
  {
   "property": "C21",
   "status": "proved",
   "theorems": [
    "C21_fluid_determined",
    "C21_resaturation"
   ],
   "note": ""
  },
  {
   "property": "C22",
   "status": "proved",
   "theorems": [
    "C22_ratio_check",
    "C22_ratio_outside_rejected",
    "C22_unknown_bound_rejected"
   ],
   "note": ""
  },
  {
   "property": "C23",
   "status": "proved",
   "theorems": [
    "C23_walpole_between",
    "C23_walpole_between_any"
   ],
   "note": "For materials with the rigidity the formula needs; the remaining fluid cases are C88/C89."
  },
  {
   "property": "C24",
   "status": "proved",
   "theorems": [
    "C24_lower_le_upper",
    "C24_lower_le_upper_any"
   ],
   "note": ""
  },
  {
   "property": "C25",
   "status": "partial",
   "theorems": [
    "C25_endpoints",
    "C25_endpoint_fluid_refuted"
   ],
   "note": "Proved for two solids (lower) or at least one solid (upper). Refuted for a solid with an absent fluid: ZeroDivisionError at ratio 1."
  },
  {
   "property": "C26",
   "status": "partial",
   "theorems": [
    "C26_symmetric",
    "C26_symmetric_fluid_refuted"
   ],
   "note": "Proved for two solids (lower) or at least one solid (upper). Refuted for solid+fluid in the lower bound: one order works, the other raises ZeroDivisionError."
  },
  {
   "property": "C27",
   "status": "proved",
   "theorems": [
    "C27_self_mix"
   ],
   "note": ""
  },
  {
   "property": "C28",
   "status": "proved",
   "theorems": [
    "C28_classical_bound"
   ],
   "note": ""
  },
  {
   "property": "C29",
   "status": "proved",
   "theorems": [
    "C29_average_symmetric",
    "C29_average_between"
   ],
   "note": ""
  },
  {
   "property": "C30",
   "status": "proved",
   "theorems": [
    "C30_reuss_voigt"
   ],
   "note": ""
  },
  {
   "property": "C31",
   "status": "proved",
   "theorems": [
    "C31_more_stiff_is_stiffer"
   ],
   "note": ""
  },
  {
   "property": "C32",
   "status": "proved",
   "theorems": [
    "C32_fraction_completion",
    "C32_fraction_completion_outcome"
   ],
   "note": ""
  },
  {
   "property": "C33",
   "status": "proved",
   "theorems": [
    "C33_mineral_density"
   ],
   "note": ""
  },
  {
   "property": "C34",
   "status": "proved",
   "theorems": [
    "C34_mineral_range"
   ],
   "note": ""
  },
  {
   "property": "C35",
   "status": "proved",
   "theorems": [
    "C35_zero_fraction_no_effect"
   ],
   "note": ""
  },
  {
   "property": "C36",
   "status": "partial",
   "theorems": [
    "C36_two_minerals_commute",
    "C36_equal_shear_commute",
    "C36_mineral_order_refuted"
   ],
   "note": "Proved for two minerals and for any number with a common shear modulus. Refuted for three general minerals: pairwise lower bounds take the minimum of the two at hand, so the result depends on the order."
  },
  {
   "property": "C37",
   "status": "proved",
   "theorems": [
    "C37_minerals_accepted_iff",
    "C37_minerals_result"
   ],
   "note": ""
  },
  {
   "property": "C38",
   "status": "proved",
   "theorems": [
    "C38_cube_root_law",
    "C38_increasing_in_pressure"
   ],
   "note": ""
  },
  {
   "property": "C39",
   "status": "proved",
   "theorems": [
    "C39_density_and_shear_reduction"
   ],
   "note": ""
  },
  {
   "property": "C40",
   "status": "partial",
   "theorems": [
    "C40_friable_endpoints",
    "C40_friable_density",
    "C40_zero_pressure",
    "C40_endpoints_refuted"
   ],
   "note": "End members and density proved for every positive pressure. Refuted at pressure zero: the pack has no stiffness and the lower bound divides by zero for every mineral and porosity."
  },
  {
   "property": "C41",
   "status": "proved",
   "theorems": [
    "C41_friable_between",
    "C41_friable_pressure"
   ],
   "note": ""
  },
  {
   "property": "C42",
   "status": "proved",
   "theorems": [
    "C42_radius_ratio_range",
    "C42_radius_ratio_antitone",
    "C42_radius_ratio_rejects",
    "C42_radius_ratio_square"
   ],
   "note": ""
  },
  {
   "property": "C43",
   "status": "proved",
   "theorems": [
    "C43_contact_cement_rejects",
    "C43_contact_cement_accepts"
   ],
   "note": "Rejection proved for all materials. Acceptance proved when the cement has at least a fifth of the grains' rigidity; much softer cement can give a negative stiffness and ValueError from Material."
  },
  {
   "property": "C44",
   "status": "partial",
   "theorems": [
    "C44_mass_refuted",
    "C44_mass_characterised"
   ],
   "note": "Refuted: density weighs cement by the radius ratio instead of the pore volume it fills. Proved exactly when mass is conserved."
  },
  {
   "property": "C45",
   "status": "proved",
   "theorems": [
    "C45_constant_cement_ends",
    "C45_constant_cement_between"
   ],
   "note": ""
  },
  {
   "property": "C46",
   "status": "proved",
   "theorems": [
    "C46_patchy_between"
   ],
   "note": ""
  },
  {
   "property": "C47",
   "status": "proved",
   "theorems": [
    "C47_patchy_density"
   ],
   "note": ""
  },
  {
   "property": "C48",
   "status": "proved",
   "theorems": [
    "C48_murphy_positive",
    "C48_murphy_decreasing",
    "C48_murphy_table"
   ],
   "note": ""
  },
  {
   "property": "C49",
   "status": "proved",
   "theorems": [
    "C49_truncation",
    "C49_antitone"
   ],
   "note": ""
  },
  {
   "property": "C50",
   "status": "partial",
   "theorems": [
    "C50_refuted",
    "C50_validator",
    "C50_exactly",
    "C50_unusable",
    "C50_accepted"
   ],
   "note": "Refuted: fluid and rock both given as null are accepted, the validator tests for keys that pydantic always fills in (pressure.py:30-34). Proved exactly when no pore pressure is left."
  },
  {
   "property": "C51",
   "status": "partial",
   "theorems": [
    "C51_rock_defaults_to_fluid",
    "C51_null_fluid_defaults_to_rock",
    "C51_rock_only_refuted",
    "C51_defaults"
   ],
   "note": "Proved for fluid only and for fluid: null with rock. Refuted for rock only: fluid keeps its own default of 70 MPa."
  },
  {
   "property": "C52",
   "status": "proved",
   "theorems": [
    "C52_identity_at_reference",
    "C52_adjustment_identity"
   ],
   "note": ""
  },
  {
   "property": "C53",
   "status": "proved",
   "theorems": [
    "C53_composition"
   ],
   "note": ""
  },
  {
   "property": "C54",
   "status": "proved",
   "theorems": [
    "C54_vanishing_reference",
    "C54_rejected"
   ],
   "note": ""
  },
  {
   "property": "C55",
   "status": "partial",
   "theorems": [
    "C55_powerfit",
    "C55_negative_ratio_refuted"
   ],
   "note": "Values proved, the ratio up to sign. Refuted: a negative velocity ratio with square above 4/3 is accepted and turned positive."
  },
  {
   "property": "C56",
   "status": "partial",
   "theorems": [
    "C56_refuted",
    "C56_identity_at_effective_reference"
   ],
   "note": "Refuted: the fit at rock pore pressure is compared with the fit at effective reference pressure. Identity proved when those two numbers coincide."
  },
  {
   "property": "C57",
   "status": "partial",
   "theorems": [
    "C57_refuted",
    "C57_values",
    "C57_velocities"
   ],
   "note": "Refuted: model.py:67 tests the bound method, velocities are taken for moduli. Proved: the values are always taken for moduli, and exactly when that agrees with velocities."
  },
  {
   "property": "C58",
   "status": "partial",
   "theorems": [
    "C58_refuted",
    "C58_max_depth_is_ignored"
   ],
   "note": "Refuted: depth_trend.py:39 throws the clipped depth away; max_depth has no effect at all (proved)."
  },
  {
   "property": "C59",
   "status": "proved",
   "theorems": [
    "C59_identity_polynomial",
    "C59_identity_depth_trend",
    "C59_constant_polynomial"
   ],
   "note": ""
  },
  {
   "property": "C60",
   "status": "proved",
   "theorems": [
    "C60_adjustments_in_order",
    "C60_one_and_none",
    "C60_error_aborts",
    "C60_dry_rock_is_adjusted_model"
   ],
   "note": ""
  },
  {
   "property": "C61",
   "status": "proved",
   "theorems": [
    "C61_defaults_filled",
    "C61_flavoured_defaults"
   ],
   "note": ""
  },
  {
   "property": "C62",
   "status": "proved",
   "theorems": [
    "C62_friable_validator",
    "C62_patchy_validator"
   ],
   "note": ""
  },
  {
   "property": "C63",
   "status": "partial",
   "theorems": [
    "C63_refuted",
    "C63_accepted_by_every_model"
   ],
   "note": "Refuted: no model rejects negative porosity when the input is read (proved for all models)."
  },
  {
   "property": "C64",
   "status": "proved",
   "theorems": [
    "C64_insertion",
    "C64_unchanged"
   ],
   "note": ""
  },
  {
   "property": "C65",
   "status": "partial",
   "theorems": [
    "C65_missing_column",
    "C65_unhashable_name_refuted"
   ],
   "note": "Proved for scalar column names. Refuted for unhashable names: TypeError is raised instead."
  },
  {
   "property": "C66",
   "status": "proved",
   "theorems": [
    "C66_no_data"
   ],
   "note": ""
  },
  {
   "property": "C67",
   "status": "proved",
   "theorems": [
    "C67_exit_codes"
   ],
   "note": ""
  },
  {
   "property": "C68",
   "status": "partial",
   "theorems": [
    "C68_threshold_output",
    "C68_rows_split",
    "C68_true_percentage_partial",
    "C68_needs_data"
   ],
   "note": "Written rows and use of the threshold proved for all tables; with the true percentage proved outside a 1e-13 margin. Inside it refuted, see C70."
  },
  {
   "property": "C69",
   "status": "partial",
   "theorems": [
    "C69_escapes",
    "C69_refuted"
   ],
   "note": "Refuted: make_per_row_input is called outside any try (__main__.py:180), InputError leaves the program."
  },
  {
   "property": "C70",
   "status": "partial",
   "theorems": [
    "C70_refuted",
    "C70_integer_threshold_partial",
    "C70_never_lenient"
   ],
   "note": "Refuted: one success in ten rows is below a threshold of 10. Proved for whole-number thresholds and up to 1e12 rows whenever the percentage is not exactly the threshold; errors are only ever on the strict side."
  },
  {
   "property": "C71",
   "status": "partial",
   "theorems": [
    "C71_rows",
    "C71_failures",
    "C71_error_kind",
    "C71_empty_table_refuted"
   ],
   "note": "Proved for every table with at least one row (results, failures and kind of error). Refuted for a table without rows: constants of the configuration are still evaluated."
  },
  {
   "property": "C72",
   "status": "proved",
   "theorems": [
    "C72_percentage"
   ],
   "note": ""
  },
  {
   "property": "C73",
   "status": "partial",
   "theorems": [
    "C73_pressure_after",
    "C73_pressure_seen",
    "C73_input_modified_refuted",
    "C73_order_refuted",
    "C73_second_evaluation_refuted",
    "C73_no_carbon_dioxide_partial",
    "C73_order_partial"
   ],
   "note": "Refuted: `pressure /= 1e6` (fluid_model_providers.py:54) writes into the input. Proved: the exact pressure after evaluation and the pressure each constituent sees; the claim holds when no constituent is handled by Span-Wagner."
  },
  {
   "property": "C74",
   "status": "partial",
   "theorems": [
    "C74_default_model_refuted",
    "C74_unsupported_constituents",
    "C74_named_partial"
   ],
   "note": "Refuted: the section's provider (Batzle-Wang by default) is always passed, so the default span_wagner argument of CarbonDioxideMaterial.as_material is never used; NotImplementedError. Proved for a named model."
  },
  {
   "property": "C75",
   "status": "proved",
   "theorems": [
    "C75_brie_gases"
   ],
   "note": ""
  },
  {
   "property": "C76",
   "status": "proved",
   "theorems": [
    "C76_collisions"
   ],
   "note": ""
  },
  {
   "property": "C77",
   "status": "proved",
   "theorems": [
    "C77_blend",
    "C77_defined",
    "C77_ends"
   ],
   "note": ""
  },
  {
   "property": "C78",
   "status": "proved",
   "theorems": [
    "C78_fresh_brine"
   ],
   "note": ""
  },
  {
   "property": "C79",
   "status": "proved",
   "theorems": [
    "C79_derivative"
   ],
   "note": ""
  },
  {
   "property": "C80",
   "status": "proved",
   "theorems": [
    "C80_real_gas_law"
   ],
   "note": ""
  },
  {
   "property": "C81",
   "status": "proved",
   "theorems": [
    "C81_bubble_point",
    "C81_scaling"
   ],
   "note": ""
  },
  {
   "property": "C82",
   "status": "proved",
   "theorems": [
    "C82_ideal_value",
    "C82_ideal_delta_derivative",
    "C82_ideal_tau_derivative",
    "C82_ideal_orders"
   ],
   "note": ""
  },
  {
   "property": "C83",
   "status": "proved",
   "theorems": [
    "C83_pressure_from_energy",
    "C83_pressure_derivative"
   ],
   "note": ""
  },
  {
   "property": "C84",
   "status": "partial",
   "theorems": [
    "C84_phase",
    "C84_below_triple",
    "C84_above_critical",
    "C84_bracket_nonempty",
    "C84_empty_bracket_refuted",
    "C84_overlap_refuted"
   ],
   "note": "Branches proved for every temperature, non-empty bracket from the triple point on. Refuted: empty bracket at 100 K; brackets of the two phases overlap near the critical point."
  },
  {
   "property": "C85",
   "status": "proved",
   "theorems": [
    "C85_node",
    "C85_nearest",
    "C85_outside",
    "C85_made"
   ],
   "note": ""
  },
  {
   "property": "C86",
   "status": "partial",
   "theorems": [
    "C86_ordering",
    "C86_ordering_row",
    "C86_negative_porosity_refuted"
   ],
   "note": "Proved for porosity >= 0 (row and table); refuted for negative porosity, which a polynomial rock model accepts."
  },
  {
   "property": "C87",
   "status": "partial",
   "theorems": [
    "C87_never_softer_than_dry_refuted",
    "C87_exactly"
   ],
   "note": "Refuted: a dry rock stiffer than its mineral is accepted and comes out softer (fluid.py:122-146 has no kdry <= kmin guard). Proved exactly when the claim holds."
  },
  {
   "property": "C88",
   "status": "proved",
   "theorems": [
    "C88_walpole_of_fluids_is_wood"
   ],
   "note": ""
  },
  {
   "property": "C89",
   "status": "proved",
   "theorems": [
    "C89_fluid_first",
    "C89_fluid_second",
    "C89_fluid_second_absent"
   ],
   "note": ""
  },
  {
   "property": "C90",
   "status": "proved",
   "theorems": [
    "C90_handbook_formula"
   ],
   "note": ""
  },
  {
   "property": "C91",
   "status": "proved",
   "theorems": [
    "C91_friable_softens_with_porosity"
   ],
   "note": ""
  },
  {
   "property": "C92",
   "status": "proved",
   "theorems": [
    "C92_patchy_pressure"
   ],
   "note": ""
  },
  {
   "property": "C93",
   "status": "proved",
   "theorems": [
    "C93_patchy_at_lower_pressure"
   ],
   "note": ""
  },
  {
   "property": "C94",
   "status": "proved",
   "theorems": [
    "C94_frictionless_pack",
    "C94_frictionless_cement"
   ],
   "note": ""
  },
  {
   "property": "C95",
   "status": "proved",
   "theorems": [
    "C95_published_contact_cement"
   ],
   "note": ""
  },
  {
   "property": "C96",
   "status": "proved",
   "theorems": [
    "C96_unit_of_stiffness_walpole",
    "C96_unit_of_stiffness_friable",
    "C96_unit_of_stiffness_patchy"
   ],
   "note": ""
  },
  {
   "property": "C97",
   "status": "partial",
   "theorems": [
    "C97_refuted",
    "C97_counted_twice"
   ],
   "note": "Refuted: dry_rock.py:148 uses the rock pressure; a rock with its own model as pressure dependency counts the change twice (proved)."
  },
  {
   "property": "C98",
   "status": "proved",
   "theorems": [
    "C98_moduli_polynomial",
    "C98_velocity_polynomial"
   ],
   "note": ""
  },
  {
   "property": "C99",
   "status": "partial",
   "theorems": [
    "C99_depth_trend_partial",
    "C99_documented_indices_refuted",
    "C99_missing_coefficients"
   ],
   "note": "Refuted: the index roles are swapped (c[i][j]*p^i*depth^j) and max_depth is ignored; the actual formula is proved."
  },
  {
   "property": "C100",
   "status": "partial",
   "theorems": [
    "C100_expfit",
    "C100_logfit",
    "C100_polyfit",
    "C100_powerfit_partial",
    "C100_powerfit_documented_refuted"
   ],
   "note": "Expfit, logfit and polyfit proved. Refuted for powerfit: c1*p^c2 instead of the documented c1+p^c2."
  },
  {
   "property": "C101",
   "status": "proved",
   "theorems": [
    "C101_default_dry_rock"
   ],
   "note": ""
  },
  {
   "property": "C102",
   "status": "partial",
   "theorems": [
    "C102_valid_up_to_partial",
    "C102_exactly_when",
    "C102_refuted"
   ],
   "note": "Proved up to 0.36 with an exact iff. Refuted at 0.37: default vp/vs falls below sqrt(4/3)."
  },
  {
   "property": "C103",
   "status": "partial",
   "theorems": [
    "C103_defaults",
    "C103_cement_coordination_refuted"
   ],
   "note": "Defaults proved. Refuted: the cemented part always uses 9, whatever is configured (model.py:322-334)."
  },
  {
   "property": "C104",
   "status": "proved",
   "theorems": [
    "C104_zero_porosity",
    "C104_solid_rock"
   ],
   "note": ""
  },
  {
   "property": "C105",
   "status": "partial",
   "theorems": [
    "C105_undecodable_refuted",
    "C105_config",
    "C105_data"
   ],
   "note": "Refuted: UnicodeDecodeError is not among the caught classes, the run ends with -1. Proved exactly which exceptions end with -2."
  },
  {
   "property": "C106",
   "status": "partial",
   "theorems": [
    "C106_nan_rows_refuted",
    "C106_written"
   ],
   "note": "Refuted: failing rows are dropped (__main__.py:183-191, 202). Proved: the output is the successful rows in order."
  },
  {
   "property": "C107",
   "status": "partial",
   "theorems": [
    "C107_no_success_refuted",
    "C107_success"
   ],
   "note": "Proved when at least one row succeeded. Refuted for empty data and for threshold 0 with no success: pd.concat of nothing raises ValueError, exit code -1."
  },
  {
   "property": "C108",
   "status": "proved",
   "theorems": [
    "C108_extreme_thresholds"
   ],
   "note": ""
  },
  {
   "property": "C109",
   "status": "proved",
   "theorems": [
    "C109_dead_oil",
    "C109_live_oil",
    "C109_brine",
    "C109_water"
   ],
   "note": ""
  },
  {
   "property": "C110",
   "status": "proved",
   "theorems": [
    "C110_gas"
   ],
   "note": ""
  },
  {
   "property": "C111",
   "status": "proved",
   "theorems": [
    "C111_gas_denser_with_pressure"
   ],
   "note": ""
  },
  {
   "property": "C112",
   "status": "proved",
   "theorems": [
    "C112_gas_zero_pressure"
   ],
   "note": ""
  },
  {
   "property": "C113",
   "status": "partial",
   "theorems": [
    "C113_documented_units_refuted",
    "C113_actual_units"
   ],
   "note": "Refuted: as a function of pressure in Pa the density is off by 1e12 and the bulk modulus by 1e9 (proved). gas_density compensates by passing MPa*1e-6, so gas() is right (C80)."
  },
  {
   "property": "C114",
   "status": "proved",
   "theorems": [
    "C114_brine_usable"
   ],
   "note": ""
  },
  {
   "property": "C115",
   "status": "proved",
   "theorems": [
    "C115_brine_denser_with_salinity"
   ],
   "note": ""
  },
  {
   "property": "C116",
   "status": "partial",
   "theorems": [
    "C116_water_units_refuted",
    "C116_exactly"
   ],
   "note": "Refuted: water() is in g/cc. Proved: its density and bulk modulus are a thousandth of those of fresh brine at every temperature and pressure."
  },
  {
   "property": "C117",
   "status": "proved",
   "theorems": [
    "C117_heavy_oil"
   ],
   "note": ""
  },
  {
   "property": "C118",
   "status": "partial",
   "theorems": [
    "C118_pressure_partial",
    "C118_pressure_iff",
    "C118_high_pressure_refuted",
    "C118_temperature"
   ],
   "note": "Temperature proved, pressure proved up to 73 MPa. Refuted above: from 100 to 150 MPa the density falls."
  },
  {
   "property": "C119",
   "status": "partial",
   "theorems": [
    "C119_pressure_refuted",
    "C119_pressure_ignored",
    "C119_temperature"
   ],
   "note": "Temperature proved. Refuted for pressure: live_oil_density never reads its pressure argument (oil_properties.py:404-423)."
  },
  {
   "property": "C120",
   "status": "partial",
   "theorems": [
    "C120_negative_gor_refuted",
    "C120_exactly"
   ],
   "note": "Refuted: a gas-oil ratio of -0.5 is accepted (for the NumPy numbers a configuration holds). Proved exactly what is asked of the ratio: the base of the power in the volume factor is not negative."
  },
  {
   "property": "C121",
   "status": "partial",
   "theorems": [
    "C121_condensate_refuted",
    "C121_condensate_fails"
   ],
   "note": "Refuted: condensate fails under both shipped providers."
  },
  {
   "property": "C122",
   "status": "partial",
   "theorems": [
    "C122_listed_gases_partial",
    "C122_listed_twice_refuted",
    "C122_out_of_range",
    "C122_one_from_the_end",
    "C122_two_from_the_end_refuted"
   ],
   "note": "Proved for distinct positions in range, for one position counted from the end and for positions out of range. Refuted for repeated positions and for two counted from the end."
  },
  {
   "property": "C123",
   "status": "partial",
   "theorems": [
    "C123_no_gas",
    "C123_first_is_gas_refuted"
   ],
   "note": "Refuted: the mixture then equals Wood mixing (proved)."
  },
  {
   "property": "C124",
   "status": "partial",
   "theorems": [
    "C124_plugins_reachable_partial",
    "C124_default_plugin_refuted",
    "C124_shipped"
   ],
   "note": "Proved for names other than default; refuted for a plugin named default."
  },
  {
   "property": "C125",
   "status": "proved",
   "theorems": [
    "C125_sections_accepted",
    "C125_section_contents",
    "C125_own_models"
   ],
   "note": ""
  },
  {
   "property": "C126",
   "status": "partial",
   "theorems": [
    "C126_incomplete_fractions_refuted",
    "C126_accepts"
   ],
   "note": "Refuted: fractions summing to 0.5 are accepted. Proved: with all fractions given, only a sum above one is refused."
  },
  {
   "property": "C127",
   "status": "proved",
   "theorems": [
    "C127_own_model_wins"
   ],
   "note": ""
  },
  {
   "property": "C128",
   "status": "proved",
   "theorems": [
    "C128_rows_are_scalar",
    "C128_combinable"
   ],
   "note": ""
  },
  {
   "property": "C129",
   "status": "partial",
   "theorems": [
    "C129_refuted",
    "C129_partial"
   ],
   "note": "Refuted: constant depth with a column of reference depths. Proved for combinable configurations; otherwise same result or shape error."
  },
  {
   "property": "C130",
   "status": "proved",
   "theorems": [
    "C130_selection"
   ],
   "note": ""
  },
  {
   "property": "C131",
   "status": "proved",
   "theorems": [
    "C131_residual_value",
    "C131_residual_delta_derivative",
    "C131_residual_tau_derivative",
    "C131_residual_orders"
   ],
   "note": ""
  },
  {
   "property": "C132",
   "status": "proved",
   "theorems": [
    "C132_isentropic"
   ],
   "note": ""
  },
  {
   "property": "C133",
   "status": "proved",
   "theorems": [
    "C133_isentropic_stiffer",
    "C133_low_density"
   ],
   "note": ""
  },
  {
   "property": "C134",
   "status": "proved",
   "theorems": [
    "C134_ideal_gas_limit"
   ],
   "note": ""
  },
  {
   "property": "C135",
   "status": "proved",
   "theorems": [
    "C135_published_densities",
    "C135_published_pressures",
    "C135_ends",
    "C135_vapor_density_increasing",
    "C135_liquid_density_decreasing",
    "C135_vapor_pressure_increasing",
    "C135_sublimation_pressure_increasing",
    "C135_melting_pressure_increasing"
   ],
   "note": ""
  },
  {
   "property": "C136",
   "status": "partial",
   "theorems": [
    "C136_density_solves",
    "C136_cold_refuted"
   ],
   "note": "Proved that a density found solves the equation. Refuted that one is found: at 100 K the search always ends with ValueError (None without raise_error)."
  },
  {
   "property": "C137",
   "status": "proved",
   "theorems": [
    "C137_material",
    "C137_provider"
   ],
   "note": ""
  },
  {
   "property": "C138",
   "status": "proved",
   "theorems": [
    "C138_packaged_inside",
    "C138_packaged_outside",
    "C138_outside_no_density"
   ],
   "note": ""
  },
  {
   "property": "C139",
   "status": "partial",
   "theorems": [
    "C139_temperature_derivative",
    "C139_second_derivative_refuted"
   ],
   "note": "Proved for temperature derivatives. Refuted for d_density=2: the function falls through and returns None."
  },
  {
   "property": "C140",
   "status": "partial",
   "theorems": [
    "C140_accepted_rows",
    "C140_array_rows",
    "C140_array_bounds",
    "C140_high_pressure",
    "C140_valid_pressure_refuted",
    "C140_start",
    "C140_start_inside"
   ],
   "note": "Accuracy proved for every row. Refuted: 500 MPa at 400 K is refused, the pressure grid ends at 1.01 times the highest temperature."
  },
  {
   "property": "C141",
   "status": "partial",
   "theorems": [
    "C141_rows_partial",
    "C141_derivatives",
    "C141_mixed_derivative",
    "C141_rows_refuted"
   ],
   "note": "Proved for two arrays of the same length. Refuted for one temperature and several densities: only the first row comes back."
  },
  {
   "property": "C142",
   "status": "partial",
   "theorems": [
    "C142_arguments_changed_refuted",
    "C142_arguments_kept_partial"
   ],
   "note": "Refuted: entries equal to 1 are overwritten. Proved for arrays without ones."
  },
  {
   "property": "C143",
   "status": "proved",
   "theorems": [
    "C143_rows_alone"
   ],
   "note": ""
  },
  {
   "property": "C144",
   "status": "partial",
   "theorems": [
    "C144_modes",
    "C144_succeeding",
    "C144_one_length",
    "C144_literal_lists_refuted",
    "C144_coefficient_column_refuted",
    "C144_brie_column_refuted"
   ],
   "note": "Proved for constants and columns. Refuted for lists of numbers in the configuration (default run works, every row fails alone), for a column given as a fit coefficient (taken for one polynomial) and for a column as Brie constant (refused together, accepted alone)."
  },
  {
   "property": "C145",
   "status": "proved",
   "theorems": [
    "C145_labels",
    "C145_threshold_labels"
   ],
   "note": ""
  },
  {
   "property": "C146",
   "status": "proved",
   "theorems": [
    "C146_data_key"
   ],
   "note": ""
  },
  {
   "property": "C147",
   "status": "proved",
   "theorems": [
    "C147_key_order"
   ],
   "note": ""
  },
  {
   "property": "C148",
   "status": "proved",
   "theorems": [
    "C148_schema",
    "C148_row_schema",
    "C148_unknown_section",
    "C148_exact"
   ],
   "note": ""
  },
  {
   "property": "C149",
   "status": "proved",
   "theorems": [
    "C149_types"
   ],
   "note": ""
  },
  {
   "property": "C150",
   "status": "proved",
   "theorems": [
    "C150_defaults",
    "C150_sections"
   ],
   "note": ""
  },
  {
   "property": "C151",
   "status": "partial",
   "theorems": [
    "C151_refuted",
    "C151_refused",
    "C151_tutorial_sections"
   ],
   "note": "Refuted: the tutorial, the fluids and dry rock sections of the getting-started page and the coefficients printed for expfit and logfit are refused."
  },
  {
   "property": "C152",
   "status": "proved",
   "theorems": [
    "C152_examples",
    "C152_without_data"
   ],
   "note": "Reading of types for the examples with columns; all validators for the two without."
  },
  {
   "property": "C153",
   "status": "partial",
   "theorems": [
    "C153_untyped",
    "C153_refuted"
   ],
   "note": "Refuted: an empty dry rock model is patchy cement. Proved: without type never polyfit or expfit as pressure dependency, never polyfit as rock model without coefficients."
  },
  {
   "property": "C154",
   "status": "partial",
   "theorems": [
    "C154_refuted",
    "C154_exactly",
    "C154_fluid_minerals"
   ],
   "note": "Refuted: minerals accept every MaterialType (minerals.py:29), a brine among them fails in the calculation. Proved: that is exactly when a configuration is accepted without a calculation, and no run on such a configuration succeeds."
  },
  {
   "property": "C155",
   "status": "partial",
   "theorems": [
    "C155_refuted",
    "C155_taken",
    "C155_exactly"
   ],
   "note": "Refuted: ArbitraryMaterial overrides __post_init__ without the checks of Material; density -3, shear modulus -1 and velocity -2 complete with exit code 0. Proved: what is given is taken as it is, and exactly which numbers pass when the velocities are missing."
  },
  {
   "property": "C156",
   "status": "proved",
   "theorems": [
    "C156_scaling",
    "C156_accepted"
   ],
   "note": ""
  },
  {
   "property": "C157",
   "status": "proved",
   "theorems": [
    "C157_refused",
    "C157_short"
   ],
   "note": ""
  },
  {
   "property": "C158",
   "status": "proved",
   "theorems": [
    "C158_statistics",
    "C158_complete",
    "C158_zero_values"
   ],
   "note": ""
  },
  {
   "property": "C159",
   "status": "proved",
   "theorems": [
    "C159_exit_codes"
   ],
   "note": ""
  },
  {
   "property": "C160",
   "status": "partial",
   "theorems": [
    "C160_text_refuted",
    "C160_text"
   ],
   "note": "Refuted: a column with text (TypeError) and undecodable bytes end with -1; exact condition proved for text."
  },
  {
   "property": "C161",
   "status": "partial",
   "theorems": [
    "C161_row_count_refuted",
    "C161_other_cells",
    "C161_other_results"
   ],
   "note": "Refuted: nothing compares the row counts (__main__.py:28-39). Proved what happens instead: the report depends only on the rows with a number on both sides."
  },
  {
   "property": "C162",
   "status": "partial",
   "theorems": [
    "C162_own_output",
    "C162_threshold_refuted"
   ],
   "note": "Proved for default runs. Refuted with a success threshold: the output numbers the remaining rows anew when read, so different rows are compared."
  },
  {
   "property": "C163",
   "status": "proved",
   "theorems": [
    "C163_agrees",
    "C163_water",
    "C163_coordination"
   ],
   "note": ""
  },
  {
   "property": "C164",
   "status": "proved",
   "theorems": [
    "C164_rows",
    "C164_failures",
    "C164_untouched"
   ],
   "note": ""
  },
  {
   "property": "C165",
   "status": "proved",
   "theorems": [
    "C165_columns"
   ],
   "note": ""
  },
  {
   "property": "C166",
   "status": "proved",
   "theorems": [
    "C166_missing_column"
   ],
   "note": ""
  },
  {
   "property": "C167",
   "status": "proved",
   "theorems": [
    "C167_holes"
   ],
   "note": ""
  },
  {
   "property": "C168",
   "status": "proved",
   "theorems": [
    "C168_mineral_fraction"
   ],
   "note": ""
  },
  {
   "property": "C169",
   "status": "partial",
   "theorems": [
    "C169_missing_value_refuted"
   ],
   "note": "Refuted: where dry rock and mineral have the same bulk modulus, gassmann returns early unless the dry rock is nan; the division after it can be by zero (mineral as stiff as the fluid)."
  },
  {
   "property": "C170",
   "status": "partial",
   "theorems": [
    "C170_numbers_refuted",
    "C170_outside"
   ],
   "note": "Refuted: a friable sand with more pore pressure than overburden pressure has nan moduli and no error (C171); NumPy roots of negative numbers are nan and no check looks for it. Proved: a nan among the results of numbers means the calculation left the real numbers on the way, so numbers give numbers wherever C207 applies."
  },
  {
   "property": "C171",
   "status": "proved",
   "theorems": [
    "C171_overpressure"
   ],
   "note": ""
  },
  {
   "property": "C172",
   "status": "proved",
   "theorems": [
    "C172_output_is_meant",
    "C172_meant_is_output",
    "C172_no_data",
    "C172_one_output"
   ],
   "note": ""
  },
  {
   "property": "C173",
   "status": "proved",
   "theorems": [
    "C173_rewritten"
   ],
   "note": ""
  },
  {
   "property": "C174",
   "status": "proved",
   "theorems": [
    "C174_brine",
    "C174_dead_oil",
    "C174_oil"
   ],
   "note": ""
  },
  {
   "property": "C175",
   "status": "proved",
   "theorems": [
    "C175_only_named_files"
   ],
   "note": ""
  },
  {
   "property": "C176",
   "status": "proved",
   "theorems": [
    "C176_command",
    "C176_options"
   ],
   "note": ""
  },
  {
   "property": "C177",
   "status": "partial",
   "theorems": [
    "C177_emptied",
    "C177_refuted",
    "C177_rejected_refuted"
   ],
   "note": "Refuted: the output file is emptied while the command line is parsed, so failing and rejected runs lose the previous results; exact condition proved."
  },
  {
   "property": "C178",
   "status": "partial",
   "theorems": [
    "C178_lost_input",
    "C178_refuted"
   ],
   "note": "Refuted: a configuration or data file also named as output is emptied before it is read; the run then always fails and the file is lost."
  },
  {
   "property": "C179",
   "status": "proved",
   "theorems": [
    "C179_status",
    "C179_success_writes",
    "C179_not_rejected"
   ],
   "note": ""
  },
  {
   "property": "C180",
   "status": "partial",
   "theorems": [
    "C180_stdout",
    "C180_refuted"
   ],
   "note": "Refuted: messages for failing rows precede the table on standard output; the exact output is proved."
  },
  {
   "property": "C181",
   "status": "proved",
   "theorems": [
    "C181_tutorial"
   ],
   "note": ""
  },
  {
   "property": "C182",
   "status": "partial",
   "theorems": [
    "C182_velocities",
    "C182_zero_bulk_refuted"
   ],
   "note": "Refuted for a bulk modulus of zero: the guard on the velocities can reject by rounding; proved when mu <= 2^46 K."
  },
  {
   "property": "C183",
   "status": "partial",
   "theorems": [
    "C183_repack",
    "C183_repack_refuted"
   ],
   "note": "Refuted for a bulk modulus of zero: repacking can refuse an accepted material; proved when mu <= 2^46 K."
  },
  {
   "property": "C184",
   "status": "partial",
   "theorems": [
    "C184_gassmann",
    "C184_softer_refuted"
   ],
   "note": "Refuted: rounding can make the saturated rock softer than the dry rock; the error bound, the upper bound and the absence of division by zero are proved."
  },
  {
   "property": "C185",
   "status": "proved",
   "theorems": [
    "C185_substitution"
   ],
   "note": ""
  },
  {
   "property": "C186",
   "status": "proved",
   "theorems": [
    "C186_wood",
    "C186_zero_saturations"
   ],
   "note": ""
  },
  {
   "property": "C187",
   "status": "proved",
   "theorems": [
    "C187_decimals",
    "C187_tolerance"
   ],
   "note": ""
  },
  {
   "property": "C188",
   "status": "partial",
   "theorems": [
    "C188_rest",
    "C188_negative_refuted"
   ],
   "note": "Refuted: the remaining fraction can be negative by rounding; the error bound is proved."
  },
  {
   "property": "C189",
   "status": "proved",
   "theorems": [
    "C189_lower",
    "C189_upper",
    "C189_first",
    "C189_unique"
   ],
   "note": ""
  },
  {
   "property": "C190",
   "status": "proved",
   "theorems": [
    "C190_friable",
    "C190_softer_pack",
    "C190_pack"
   ],
   "note": ""
  },
  {
   "property": "C191",
   "status": "proved",
   "theorems": [
    "C191_constant_cement"
   ],
   "note": ""
  },
  {
   "property": "C192",
   "status": "proved",
   "theorems": [
    "C192_patchy_cement"
   ],
   "note": ""
  },
  {
   "property": "C193",
   "status": "proved",
   "theorems": [
    "C193_success",
    "C193_meant",
    "C193_threshold",
    "C193_split"
   ],
   "note": ""
  },
  {
   "property": "C194",
   "status": "partial",
   "theorems": [
    "C194_walpole",
    "C194_no_stiffness_refuted"
   ],
   "note": "Refuted for a material without stiffness: rounding can make the bulk modulus of the mixture negative and the mixture is refused; proved when the moduli differ at most by the factor 2^40."
  },
  {
   "property": "C195",
   "status": "proved",
   "theorems": [
    "C195_text_determines",
    "C195_rebuilds"
   ],
   "note": ""
  },
  {
   "property": "C196",
   "status": "partial",
   "theorems": [
    "C196_by_position",
    "C196_by_keyword",
    "C196_keyword_refuted"
   ],
   "note": "Proved by position. Refuted by keyword: takes_stream looks at positional arguments only (__main__.py:73), a name is then parsed as YAML and refused."
  },
  {
   "property": "C197",
   "status": "partial",
   "theorems": [
    "C197_quoted",
    "C197_csv_constant",
    "C197_csv_refuted"
   ],
   "note": "Proved for marked YAML errors, columns and values. Refuted for data files: line 110 lacks the f prefix and prints {e} literally."
  },
  {
   "property": "C198",
   "status": "partial",
   "theorems": [
    "C198_bound",
    "C198_average",
    "C198_contrast_refuted"
   ],
   "note": "Proved for contrasts up to 2^40. Refuted beyond: with ratio 0 the result is k1 + (k2 - k1), which loses k2 when it is much smaller (hashin_shtrikman.py:75)."
  },
  {
   "property": "C199",
   "status": "proved",
   "theorems": [
    "C199_density",
    "C199_mineral_bulk",
    "C199_saturated_bulk"
   ],
   "note": ""
  },
  {
   "property": "C200",
   "status": "proved",
   "theorems": [
    "C200_rejected"
   ],
   "note": ""
  },
  {
   "property": "C201",
   "status": "proved",
   "theorems": [
    "C201_message",
    "C201_silent"
   ],
   "note": ""
  },
  {
   "property": "C202",
   "status": "partial",
   "theorems": [
    "C202_zero_by_zero",
    "C202_no_effect_refuted"
   ],
   "note": "Refuted for a fluid without stiffness: 0/0 is nan in NumPy, which takes the bulk modulus of the whole mixture (fluid.py:34-35). For positive bulk moduli it is C08_wood_drop_zero."
  },
  {
   "property": "C203",
   "status": "proved",
   "theorems": [
    "C203_log_fit"
   ],
   "note": ""
  },
  {
   "property": "C204",
   "status": "proved",
   "theorems": [
    "C204_statuses"
   ],
   "note": ""
  },
  {
   "property": "C205",
   "status": "proved",
   "theorems": [
    "C205_number",
    "C205_array",
    "C205_whole_number",
    "C205_yes_or_no"
   ],
   "note": ""
  },
  {
   "property": "C206",
   "status": "partial",
   "theorems": [
    "C206_fits_refuse",
    "C206_no_rows_refuted"
   ],
   "note": "Refuted: a polynomial dependency gives no rows for a table without rows, exponential, logarithmic and power fits raise (np.vectorize refuses size 0 with a new output dimension). C206_fits_refuse says so for all of them."
  },
  {
   "property": "C207",
   "status": "proved",
   "theorems": [
    "C207_row",
    "C207_run",
    "C207_brine",
    "C207_plain"
   ],
   "note": ""
  },
  {
   "property": "C208",
   "status": "proved",
   "theorems": [
    "C208_spelling",
    "C208_only",
    "C208_information"
   ],
   "note": ""
  },
  {
   "property": "C209",
   "status": "proved",
   "theorems": [
    "C209_foreign",
    "C209_dash_or_underscore",
    "C209_emptied",
    "C209_ambiguous"
   ],
   "note": ""
  },
  {
   "property": "C210",
   "status": "proved",
   "theorems": [
    "C210_standard_output"
   ],
   "note": ""
  },
  {
   "property": "C211",
   "status": "proved",
   "theorems": [
    "C211_materials",
    "C211_mixtures",
    "C211_substitution",
    "C211_dry_rock",
    "C211_pressure"
   ],
   "note": ""
  },
  {
   "property": "C212",
   "status": "proved",
   "theorems": [
    "C212_accepted",
    "C212_python",
    "C212_zero_density"
   ],
   "note": ""
  },
  {
   "property": "C213",
   "status": "partial",
   "theorems": [
    "C213_number",
    "C213_column",
    "C213_default",
    "C213_same_refuted"
   ],
   "note": "Refuted: as a number, porosity one gives finite moduli (1600, 900) and a finite saturated rock of the fluid's density; as a column the moduli of both are nan without error. C213_number and C213_column say so for all minerals and fluids."
  },
  {
   "property": "C214",
   "status": "partial",
   "theorems": [
    "C214_present",
    "C214_absent",
    "C214_unused_refuted"
   ],
   "note": "Refuted for saturation zero: 0/0 makes the bulk modulus of the mixture nan (C214_absent, for all lists). Proved for the fluid that is present."
  },
  {
   "property": "C215",
   "status": "partial",
   "theorems": [
    "C215_growing",
    "C215_flat",
    "C215_reference",
    "C215_refused_refuted"
   ],
   "note": "Refuted: a zero reference pressure makes the factors of the moduli zero and that of a constant density nan without error (C215_reference), a constant fit gives nan at zero effective pressure (C215_flat). Proved: growing fits are refused at zero effective pressure (C215_growing)."
  },
  {
   "property": "C216",
   "status": "proved",
   "theorems": [
    "C216_no_shear"
   ],
   "note": ""
  },
  {
   "property": "C217",
   "status": "proved",
   "theorems": [
    "C217_arithmetic",
    "C217_by_zero",
    "C217_signs",
    "C217_order",
    "C217_exp",
    "C217_log",
    "C217_root",
    "C217_power",
    "C217_power_negative",
    "C217_power_python"
   ],
   "note": ""
  },
  {
   "property": "C218",
   "status": "partial",
   "theorems": [
    "C218_polynomials",
    "C218_constant_refuted"
   ],
   "note": "Refuted for infinite properties: polyval2d computes c + x*0, which is nan. C218_polynomials says so for all coefficients; for finite properties the claim is C211 with the real polynomial."
  },
  {
   "property": "C219",
   "status": "proved",
   "theorems": [
    "C219_bounds",
    "C219_sand",
    "C219_cement",
    "C219_zero_pressure"
   ],
   "note": ""
  },
  {
   "property": "C220",
   "status": "partial",
   "theorems": [
    "C220_nan",
    "C220_python",
    "C220_saturated",
    "C220_refused_refuted"
   ],
   "note": "Refuted: with NumPy's numbers such grains give nan moduli, a right density and no error (C220_nan for all minerals, pressures and numbers of contacts); C220_saturated: nor does fluid substitution notice. Python's numbers raise ZeroDivisionError (C220_python)."
  },
  {
   "property": "C221",
   "status": "partial",
   "theorems": [
    "C221_suspension",
    "C221_nan",
    "C221_python",
    "C221_endpoint_refuted"
   ],
   "note": "Refuted at ratio zero: shear modulus and velocities are nan (C221_nan, also for two fluids), and Python's numbers raise ZeroDivisionError for every ratio (C221_python). Proved: for positive ratios the bound is Reuss's average without shear modulus (C221_suspension)."
  },
  {
   "property": "C222",
   "status": "proved",
   "theorems": [
    "C222_soft_grains",
    "C222_soft_cement"
   ],
   "note": ""
  },
  {
   "property": "C223",
   "status": "proved",
   "theorems": [
    "C223_gas",
    "C223_oil",
    "C223_brine"
   ],
   "note": ""
  },
  {
   "property": "C224",
   "status": "partial",
   "theorems": [
    "C224_gas",
    "C224_brine",
    "C224_oil",
    "C224_infinite_refuted"
   ],
   "note": "Refuted for brine and water (all of density, bulk modulus and velocities are nan, no error: C224_brine, for every infinite or nan temperature, pressure or salinity) and for oil of infinite gas-oil ratio (C224_oil). Proved for gas: ZeroDivisionError (C224_gas)."
  },
  {
   "property": "C225",
   "status": "proved",
   "theorems": [
    "C225_results",
    "C225_fluids",
    "C225_printed"
   ],
   "note": ""
  },
  {
   "property": "C226",
   "status": "proved",
   "theorems": [
    "C226_run",
    "C226_rows",
    "C226_adjustments"
   ],
   "note": ""
  },
  {
   "property": "C227",
   "status": "partial",
   "theorems": [
    "C227_above",
    "C227_brine",
    "C227_negative_refuted",
    "C227_missed_refuted"
   ],
   "note": "Refuted: a negative pressure passes silently (C227_negative_refuted), and brine at 150 MPa after carbon dioxide too, because it then sees 150 Pa (C227_missed_refuted). Proved: warned exactly above 100 MPa (C227_above, C227_brine)."
  },
  {
   "property": "C228",
   "status": "partial",
   "theorems": [
    "C228_plain",
    "C228_dead",
    "C228_monotone",
    "C228_refuted"
   ],
   "note": "Refuted: after carbon dioxide of Span and Wagner the pressure array has been divided by a million in place (fluid_model_providers.py:54), so oil far above its bubble point is warned about. Proved for fluids without carbon dioxide (C228_plain) and for every order with the pressure as left by the fluids before (C226_run)."
  },
  {
   "property": "C229",
   "status": "proved",
   "theorems": [
    "C229_oil",
    "C229_gas"
   ],
   "note": ""
  },
  {
   "property": "C230",
   "status": "proved",
   "theorems": [
    "C230_row",
    "C230_run"
   ],
   "note": ""
  },
  {
   "property": "C231",
   "status": "partial",
   "theorems": [
    "C231_polynomial",
    "C231_relative_refuted"
   ],
   "note": "Error bound proved for all polynomials in range; Refuted as a relative error: terms can cancel so that a value that is not zero comes out as zero."
  },
  {
   "property": "C232",
   "status": "proved",
   "theorems": [
    "C232_brine"
   ],
   "note": ""
  },
  {
   "property": "C233",
   "status": "proved",
   "theorems": [
    "C233_hertz_mindlin"
   ],
   "note": ""
  },
  {
   "property": "C234",
   "status": "proved",
   "theorems": [
    "C234_friable_sand"
   ],
   "note": ""
  },
  {
   "property": "C235",
   "status": "proved",
   "theorems": [
    "C235_bound_velocities"
   ],
   "note": ""
  },
  {
   "property": "C236",
   "status": "proved",
   "theorems": [
    "C236_exponential_fit"
   ],
   "note": ""
  },
  {
   "property": "C237",
   "status": "proved",
   "theorems": [
    "C237_logarithmic_fit"
   ],
   "note": ""
  },
  {
   "property": "C238",
   "status": "proved",
   "theorems": [
    "C238_power_fit"
   ],
   "note": ""
  },
  {
   "property": "C239",
   "status": "proved",
   "theorems": [
    "C239_moduli",
    "C239_velocities",
    "C239_zero"
   ],
   "note": ""
  },
  {
   "property": "C240",
   "status": "proved",
   "theorems": [
    "C240_power_fit"
   ],
   "note": ""
  },
  {
   "property": "C241",
   "status": "proved",
   "theorems": [
    "C241_moduli",
    "C241_velocities"
   ],
   "note": ""
  },
  {
   "property": "C242",
   "status": "proved",
   "theorems": [
    "C242_power_fit"
   ],
   "note": ""
  },
  {
   "property": "C243",
   "status": "proved",
   "theorems": [
    "C243_polynomial_fit"
   ],
   "note": ""
  },
  {
   "property": "C244",
   "status": "proved",
   "theorems": [
    "C244_velocities",
    "C244_moduli",
    "C244_arrays"
   ],
   "note": ""
  }
 ]
}