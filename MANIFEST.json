{
 "claims": [
  {
   "property": "C01",
   "status": "proved",
   "theorems": [
    "C01_accepts_exactly_well_formed_tables",
    "C01_wrong_width_is_LoadCaseError",
    "C01_bad_positions_are_AssertionError"
   ],
   "note": ""
  },
  {
   "property": "C02",
   "status": "proved",
   "theorems": [
    "C02_stored_rows_or_linear_interpolation",
    "C02_floats"
   ],
   "note": ""
  },
  {
   "property": "C03",
   "status": "proved",
   "theorems": [
    "C03_only_the_set_of_positions_matters",
    "C03_tie_breaking_does_not_matter"
   ],
   "note": ""
  },
  {
   "property": "C04",
   "status": "proved",
   "theorems": [
    "C04_compositional_over_positions"
   ],
   "note": ""
  },
  {
   "property": "C05",
   "status": "proved",
   "theorems": [
    "C05_values_stay_in_the_stored_envelope",
    "C05_between_neighbours"
   ],
   "note": ""
  },
  {
   "property": "C06",
   "status": "proved",
   "theorems": [
    "C06_positions",
    "C06_loads",
    "C06_negative_is_ValueError"
   ],
   "note": ""
  },
  {
   "property": "C07",
   "status": "proved",
   "theorems": [
    "C07_beam_list_positions",
    "C07_beam_get_loads",
    "C07_beam_get_section",
    "C07_exactly_one_of_position_and_min_positions"
   ],
   "note": ""
  },
  {
   "property": "C08",
   "status": "proved",
   "theorems": [
    "C08_name_number_enum_agree",
    "C08_component_is_the_column_of_the_full_result",
    "C08_other_designators_are_rejected"
   ],
   "note": ""
  },
  {
   "property": "C09",
   "status": "proved",
   "theorems": [
    "C09_scaling",
    "C09_superposition"
   ],
   "note": ""
  },
  {
   "property": "C10",
   "status": "proved",
   "theorems": [
    "C10_constant_load_beam",
    "C10_constant_load",
    "C10_constant_load_single_position",
    "C10_constant_load_floats"
   ],
   "note": ""
  },
  {
   "property": "C11",
   "status": "proved",
   "theorems": [
    "C11_empty_load_case",
    "C11_empty_load_case_floats",
    "C11_min_positions_is_TypeError"
   ],
   "note": ""
  },
  {
   "property": "C12",
   "status": "partial",
   "theorems": [
    "C12_positions_outside_rejected_refuted",
    "C12_reference_routine_rejects_partial",
    "C12_end_values_reported_partial"
   ],
   "note": "False of the code as it stands, shown by the _refuted theorem. Violated: get_load silently extrapolates as a constant; only the unused single-position helper asserts. What does hold is the _partial theorem (see its comment for what is missing)."
  },
  {
   "property": "C13",
   "status": "proved",
   "theorems": [
    "C13_accepted_exactly_when_consistent",
    "C13_errors_otherwise",
    "C13_every_element_answers_every_load_case"
   ],
   "note": ""
  },
  {
   "property": "C14",
   "status": "proved",
   "theorems": [
    "C14_elements_tile_the_beam",
    "C14_floats"
   ],
   "note": ""
  },
  {
   "property": "C15",
   "status": "proved",
   "theorems": [
    "C15_in_elements_finds_exactly_the_containing_elements",
    "C15_floats"
   ],
   "note": ""
  },
  {
   "property": "C16",
   "status": "proved",
   "theorems": [
    "C16_beam_to_local",
    "C16_local_to_beam",
    "C16_zero_length_elements",
    "C16_no_such_element",
    "C16_floats_beam_to_local",
    "C16_floats_local_to_beam"
   ],
   "note": ""
  },
  {
   "property": "C17",
   "status": "proved",
   "theorems": [
    "C17_triples_are_consistent",
    "C17_arrangement",
    "C17_floats"
   ],
   "note": ""
  },
  {
   "property": "C18",
   "status": "proved",
   "theorems": [
    "C18_min_positions_misses_no_discontinuity",
    "C18_min_positions_without_load_case",
    "C18_negative_number_is_ValueError",
    "C18_floats"
   ],
   "note": ""
  },
  {
   "property": "C19",
   "status": "proved",
   "theorems": [
    "C19_off_beam_list_positions",
    "C19_off_beam_get_loads",
    "C19_off_beam_get_section",
    "C19_no_other_position_error"
   ],
   "note": ""
  },
  {
   "property": "C20",
   "status": "partial",
   "theorems": [
    "C20_refuted",
    "C20_iff_table_spans_the_element_partial",
    "C20_without_load_case"
   ],
   "note": "False of the code as it stands, shown by the _refuted theorem. Violated: numpy broadcasting adds 1.0 to every stored position instead of appending 1.0. What does hold is the _partial theorem (see its comment for what is missing)."
  },
  {
   "property": "C21",
   "status": "proved",
   "theorems": [
    "C21_loads_are_those_of_the_triples",
    "C21_loaded_beams_always_answer"
   ],
   "note": ""
  },
  {
   "property": "C22",
   "status": "proved",
   "theorems": [
    "C22_cutting_an_element_changes_no_load",
    "C22_at_the_cut"
   ],
   "note": ""
  },
  {
   "property": "C23",
   "status": "partial",
   "theorems": [
    "C23_refuted",
    "C23_float_tables_partial",
    "C23_exact_arithmetic_partial",
    "C23_exact_arithmetic_none_missing_partial"
   ],
   "note": "False of the code as it stands, shown by the _refuted theorem. Violated for integer tables: positions are truncated. What does hold is the _partial theorem (see its comment for what is missing)."
  },
  {
   "property": "C24",
   "status": "partial",
   "theorems": [
    "C24_refuted",
    "C24_exact_arithmetic_partial",
    "C24_exact_arithmetic_min_positions_partial",
    "C24_single_element_floats_partial",
    "C24_single_element_floats_min_positions_partial",
    "C24_floats_partial",
    "C24_floats_short_element_refuted",
    "C24_floats_min_positions_partial",
    "C24_whole_steps_floats_partial"
   ],
   "note": "False of the code as it stands, shown by the _refuted theorem. Violated: rounding makes overlap exceed the length and raises PositionNotInElementError. What does hold is the _partial theorem (see its comment for what is missing). C24_floats_partial says exactly which beams of doubles answer every query."
  },
  {
   "property": "C25",
   "status": "proved",
   "theorems": [
    "C25_wrapped_sections",
    "C25_get_section_pairs_positions_with_sections"
   ],
   "note": ""
  },
  {
   "property": "C26",
   "status": "proved",
   "theorems": [
    "C26_positive_part",
    "C26_positive_part_doubles",
    "C26_errors",
    "C26_stored_loads_unchanged"
   ],
   "note": ""
  },
  {
   "property": "C27",
   "status": "proved",
   "theorems": [
    "C27_accepted",
    "C27_refused"
   ],
   "note": ""
  },
  {
   "property": "C28",
   "status": "proved",
   "theorems": [
    "C28_at_positions",
    "C28_all_sections",
    "C28_single_section",
    "C28_lower_bound",
    "C28_list_of_positions",
    "C28_design_capacity",
    "C28_default_factors"
   ],
   "note": ""
  },
  {
   "property": "C29",
   "status": "partial",
   "theorems": [
    "C29_refuted",
    "C29_partial"
   ],
   "note": "False of the code as it stands, shown by the _refuted theorem. Violated: φNtu multiplies Nty. What does hold is the _partial theorem (see its comment for what is missing)."
  },
  {
   "property": "C30",
   "status": "proved",
   "theorems": [
    "C30_worst_ratio"
   ],
   "note": ""
  },
  {
   "property": "C31",
   "status": "partial",
   "theorems": [
    "C31_refuted",
    "C31_partial"
   ],
   "note": "False of the code as it stands, shown by the _refuted theorem. Violated: ratios <= 5e-15 make the solver raise ValueError. What does hold is the _partial theorem (see its comment for what is missing)."
  },
  {
   "property": "C32",
   "status": "partial",
   "theorems": [
    "C32_refuted",
    "C32_explicit_positions_partial",
    "C32_same_positions_partial",
    "C32_first_case_positions_partial"
   ],
   "note": "False of the code as it stands, shown by the _refuted theorem. Violated: the positions found for the first load case are reused for all others. What does hold is the _partial theorem (see its comment for what is missing)."
  },
  {
   "property": "C33",
   "status": "proved",
   "theorems": [
    "C33_scaling",
    "C33_at_most_one"
   ],
   "note": ""
  },
  {
   "property": "C34",
   "status": "partial",
   "theorems": [
    "C34_refuted",
    "C34_explicit_positions_partial",
    "C34_what_it_is_partial"
   ],
   "note": "False of the code as it stands, shown by the _refuted theorem. Violated: both arguments are dropped. What does hold is the _partial theorem (see its comment for what is missing)."
  },
  {
   "property": "C35",
   "status": "partial",
   "theorems": [
    "C35_refuted",
    "C35_section_only_partial",
    "C35_no_tension_partial",
    "C35_no_utilisation_partial"
   ],
   "note": "False of the code as it stands, shown by the _refuted theorem. Violated by get_tension and tension_utilisation, which raise AttributeError. What does hold is the _partial theorem (see its comment for what is missing)."
  },
  {
   "property": "C36",
   "status": "proved",
   "theorems": [
    "C36_first_covering_band",
    "C36_refusals"
   ],
   "note": ""
  },
  {
   "property": "C37",
   "status": "proved",
   "theorems": [
    "C37_shipped_steels",
    "C37_shipped_steels_doubles"
   ],
   "note": ""
  },
  {
   "property": "C38",
   "status": "partial",
   "theorems": [
    "C38_larger_bar_refuted",
    "C38_larger_bar_partial"
   ],
   "note": "False of the code as it stands, shown by the _refuted theorem. Violated at strength band boundaries. What does hold is the _partial theorem (see its comment for what is missing)."
  },
  {
   "property": "C39",
   "status": "proved",
   "theorems": [
    "C39_list_and_lookup",
    "C39_materials_carry_the_file",
    "C39_unknown_type"
   ],
   "note": ""
  },
  {
   "property": "C40",
   "status": "proved",
   "theorems": [
    "C40_never_leaves_bracket"
   ],
   "note": ""
  },
  {
   "property": "C41",
   "status": "proved",
   "theorems": [
    "C41_near_a_root"
   ],
   "note": ""
  },
  {
   "property": "C42",
   "status": "partial",
   "theorems": [
    "C42_absolute_tolerance_refuted",
    "C42_absolute_tolerance_partial"
   ],
   "note": "False of the code as it stands, shown by the _refuted theorem. Violated: math.isclose's default relative tolerance 1e-9 also stops the loop. What does hold is the _partial theorem (see its comment for what is missing)."
  },
  {
   "property": "C43",
   "status": "proved",
   "theorems": [
    "C43_iteration_budget",
    "C43_terminates_without_limit"
   ],
   "note": ""
  },
  {
   "property": "C44",
   "status": "partial",
   "theorems": [
    "C44_late_convergence_refuted",
    "C44_late_convergence_partial"
   ],
   "note": "False of the code as it stands, shown by the _refuted theorem. Violated: the limit is tested before convergence is re-tested. What does hold is the _partial theorem (see its comment for what is missing)."
  },
  {
   "property": "C45",
   "status": "proved",
   "theorems": [
    "C45_same_sign_rejected",
    "C45_bracketing_accepted",
    "C45_bracketing_accepted_with_limit"
   ],
   "note": ""
  },
  {
   "property": "C46",
   "status": "proved",
   "theorems": [
    "C46_affine_exact"
   ],
   "note": ""
  },
  {
   "property": "C47",
   "status": "proved",
   "theorems": [
    "C47_residual"
   ],
   "note": ""
  },
  {
   "property": "C48",
   "status": "proved",
   "theorems": [
    "C48_always_a_result",
    "C48_limit_one"
   ],
   "note": ""
  },
  {
   "property": "C49",
   "status": "partial",
   "theorems": [
    "C49_positional_arguments_refuted",
    "C49_no_arguments_partial"
   ],
   "note": "False of the code as it stands, shown by the _refuted theorem. Violated when func takes positional arguments: TypeError. What does hold is the _partial theorem (see its comment for what is missing)."
  },
  {
   "property": "C50",
   "status": "proved",
   "theorems": [
    "C50_design_is_inverse_of_capacity"
   ],
   "note": ""
  },
  {
   "property": "C51",
   "status": "proved",
   "theorems": [
    "C51_capacity_results_consistent"
   ],
   "note": ""
  },
  {
   "property": "C52",
   "status": "proved",
   "theorems": [
    "C52_alpha_v_range",
    "C52_alpha_v_monotone"
   ],
   "note": ""
  },
  {
   "property": "C53",
   "status": "proved",
   "theorems": [
    "C53_alpha_vma_range",
    "C53_alpha_vma_monotone",
    "C53_alpha_vma_scale_free"
   ],
   "note": ""
  },
  {
   "property": "C54",
   "status": "proved",
   "theorems": [
    "C54_weld_total",
    "C54_weld_order",
    "C54_weld_value"
   ],
   "note": ""
  },
  {
   "property": "C55",
   "status": "proved",
   "theorems": [
    "C55_M_o_positive",
    "C55_M_o_decreases_with_length",
    "C55_M_o_doubly_symmetric"
   ],
   "note": ""
  },
  {
   "property": "C56",
   "status": "proved",
   "theorems": [
    "C56_alpha_m_capped",
    "C56_alpha_m_defined",
    "C56_alpha_m_scale_free",
    "C56_alpha_m_sign_free",
    "C56_alpha_m_uniform_moment"
   ],
   "note": ""
  },
  {
   "property": "C57",
   "status": "proved",
   "theorems": [
    "C57_alpha_s_range",
    "C57_alpha_s_monotone"
   ],
   "note": ""
  },
  {
   "property": "C58",
   "status": "partial",
   "theorems": [
    "C58_bending_capacity_capped_refuted",
    "C58_bending_capacity_capped_partial"
   ],
   "note": "False of the code as it stands, shown by the _refuted theorem. Violated: no cap is applied and α_s can reach 1.039. What does hold is the _partial theorem (see its comment for what is missing)."
  },
  {
   "property": "C59",
   "status": "proved",
   "theorems": [
    "C59_twist_restraint",
    "C59_twist_restraint_value"
   ],
   "note": ""
  },
  {
   "property": "C60",
   "status": "proved",
   "theorems": [
    "C60_alpha_c_range"
   ],
   "note": ""
  },
  {
   "property": "C61",
   "status": "partial",
   "theorems": [
    "C61_alpha_c_total_refuted",
    "C61_alpha_c_total_partial"
   ],
   "note": "False of the code as it stands, shown by the _refuted theorem. Violated: some λ_n makes λ = 0 and divides by zero. What does hold is the _partial theorem (see its comment for what is missing)."
  },
  {
   "property": "C62",
   "status": "proved",
   "theorems": [
    "C62_alpha_c_monotone",
    "C62_alpha_c_monotone_in_lambda",
    "C62_N_c_formula",
    "C62_N_c_decreases_with_length"
   ],
   "note": ""
  },
  {
   "property": "C63",
   "status": "proved",
   "theorems": [
    "C63_capacity_is_minimum_of_modes",
    "C63_modes",
    "C63_defined"
   ],
   "note": ""
  },
  {
   "property": "C64",
   "status": "proved",
   "theorems": [
    "C64_no_buckling_check",
    "C64_more_checks"
   ],
   "note": ""
  },
  {
   "property": "C65",
   "status": "proved",
   "theorems": [
    "C65_f_oxz",
    "C65_double_symmetric"
   ],
   "note": ""
  },
  {
   "property": "C66",
   "status": "proved",
   "theorems": [
    "C66_N_cz_formula",
    "C66_N_cz_range",
    "C66_N_cz_monotone",
    "C66_switch",
    "C66_stress_by_symmetry"
   ],
   "note": ""
  },
  {
   "property": "C67",
   "status": "proved",
   "theorems": [
    "C67_exchange_axes"
   ],
   "note": ""
  },
  {
   "property": "C68",
   "status": "partial",
   "theorems": [
    "C68_unsymmetric_as4600_refuted",
    "C68_offset_never_as4600",
    "C68_unsymmetric_partial",
    "C68_no_offset_partial"
   ],
   "note": "False of the code as it stands, shown by the _refuted theorem. Violated: the leading coefficient uses x_o²·y_o². What does hold is the _partial theorem (see its comment for what is missing)."
  },
  {
   "property": "C69",
   "status": "proved",
   "theorems": [
    "C69_history_independent",
    "C69_equals_uncached"
   ],
   "note": ""
  },
  {
   "property": "C70",
   "status": "partial",
   "theorems": [
    "C70_results_stable_refuted",
    "C70_always_rewritten",
    "C70_results_stable_partial",
    "C70_capacities_stable",
    "C70_unshared_stable"
   ],
   "note": "False of the code as it stands, shown by the _refuted theorem. Violated: f_oxz's cached dictionary is shared and updated in place. What does hold is the _partial theorem (see its comment for what is missing)."
  },
  {
   "property": "C71",
   "status": "proved",
   "theorems": [
    "C71_symmetry_class",
    "C71_symcount",
    "C71_without_axes"
   ],
   "note": ""
  },
  {
   "property": "C72",
   "status": "partial",
   "theorems": [
    "C72_default_symmetry_refuted",
    "C72_default_symmetry_partial"
   ],
   "note": "False of the code as it stands, shown by the _refuted theorem. Violated: Symmetry() has axes None and raises TypeError. What does hold is the _partial theorem (see its comment for what is missing)."
  },
  {
   "property": "C73",
   "status": "proved",
   "theorems": [
    "C73_effective_plate_width",
    "C73_effective_diameter",
    "C73_effective_plate_area",
    "C73_form_factor"
   ],
   "note": ""
  },
  {
   "property": "C74",
   "status": "partial",
   "theorems": [
    "C74_CHS_effective_area_refuted",
    "C74_CHS_effective_diameter_partial"
   ],
   "note": "False of the code as it stands, shown by the _refuted theorem. Violated: HollowCircle cannot be instantiated. What does hold is the _partial theorem (see its comment for what is missing)."
  },
  {
   "property": "C75",
   "status": "proved",
   "theorems": [
    "C75_multi_interp_row_wise",
    "C75_none_or_empty_is_ValueError",
    "C75_lists_and_arrays_agree"
   ],
   "note": ""
  },
  {
   "property": "C76",
   "status": "partial",
   "theorems": [
    "C76_unsorted_sample_points_rejected_refuted",
    "C76_length_mismatch_rejected_partial"
   ],
   "note": "False of the code as it stands, shown by the _refuted theorem. Violated: there is no such check. What does hold is the _partial theorem (see its comment for what is missing)."
  },
  {
   "property": "C77",
   "status": "partial",
   "theorems": [
    "C77_refuted",
    "C77_float_positions_partial"
   ],
   "note": "False of the code as it stands, shown by the _refuted theorem. Violated: an int position reaches a float-only branch and raises TypeError. What does hold is the _partial theorem (see its comment for what is missing)."
  },
  {
   "property": "C78",
   "status": "partial",
   "theorems": [
    "C78_string_restraint_codes_refuted",
    "C78_enum_codes_partial"
   ],
   "note": "False of the code as it stands, shown by the _refuted theorem. Violated: only enum members are accepted. What does hold is the _partial theorem (see its comment for what is missing)."
  },
  {
   "property": "C79",
   "status": "partial",
   "theorems": [
    "C79_monotone_for_all_section_constants_refuted",
    "C79_monotone_from_stocky_limit_partial",
    "C79_never_much_stronger_partial"
   ],
   "note": "False of the code as it stands, shown by the _refuted theorem. Violated for alpha_b = -1 below the stocky limit; holds for alpha_b >= -0.9: C62. What does hold is the _partial theorem (see its comment for what is missing)."
  },
  {
   "property": "C80",
   "status": "partial",
   "theorems": [
    "C80_capacity_decreases_with_length_refuted",
    "C80_capacity_decreases_with_length_partial",
    "C80_all_section_constants_partial"
   ],
   "note": "False of the code as it stands, shown by the _refuted theorem. Violated for sections without a symmetry and large offsets; holds when x_o²y_o² <= x_o²+y_o². What does hold is the _partial theorem (see its comment for what is missing)."
  },
  {
   "property": "C81",
   "status": "partial",
   "theorems": [
    "C81_ordinary_brackets_partial",
    "C81_huge_brackets_refuted"
   ],
   "note": "False of the code as it stands, shown by the _refuted theorem. Violated: (x_low+x_high)/2 overflows to infinity. What does hold is the _partial theorem (see its comment for what is missing)."
  },
  {
   "property": "C82",
   "status": "partial",
   "theorems": [
    "C82_edit_isolated_refuted",
    "C82_edit_isolated_partial"
   ],
   "note": "False of the code as it stands, shown by the _refuted theorem. Violated: f_oxz's returned dictionary is its cache entry. What does hold is the _partial theorem (see its comment for what is missing)."
  },
  {
   "property": "C83",
   "status": "partial",
   "theorems": [
    "C83_torsion_result_refuted",
    "C83_torsion_result_partial"
   ],
   "note": "False of the code as it stands, shown by the _refuted theorem. Violated: a stale 'Axis of Symmetry' and 'N_cz_buckling' are left in the shared dictionary. What does hold is the _partial theorem (see its comment for what is missing)."
  },
  {
   "property": "C84",
   "status": "proved",
   "theorems": [
    "C84_queries_are_pure",
    "C84_constructor_copies"
   ],
   "note": ""
  },
  {
   "property": "C85",
   "status": "partial",
   "theorems": [
    "C85_loads_exposed_refuted",
    "C85_others_unaffected_partial"
   ],
   "note": "False of the code as it stands, shown by the _refuted theorem. Violated: loads returns the stored array itself and load_positions a writable view; other load cases are unaffected. What does hold is the _partial theorem (see its comment for what is missing)."
  },
  {
   "property": "C86",
   "status": "proved",
   "theorems": [
    "C86_reference_moment_solves_buckling_equation"
   ],
   "note": ""
  },
  {
   "property": "C87",
   "status": "proved",
   "theorems": [
    "C87_slenderness_factor_equation"
   ],
   "note": ""
  },
  {
   "property": "C88",
   "status": "proved",
   "theorems": [
    "C88_bending_capacity_grows_with_strength",
    "C88_bending_capacity_falls_with_length"
   ],
   "note": ""
  },
  {
   "property": "C89",
   "status": "proved",
   "theorems": [
    "C89_interface_is_a_weld",
    "C89_chs_is_a_web"
   ],
   "note": ""
  },
  {
   "property": "C90",
   "status": "proved",
   "theorems": [
    "C90_euler_load_is_area_times_stress",
    "C90_euler_defined_together"
   ],
   "note": ""
  },
  {
   "property": "C91",
   "status": "partial",
   "theorems": [
    "C91_stronger_steel_refuted",
    "C91_stronger_steel_partial"
   ],
   "note": "False of the code as it stands, shown by the _refuted theorem. Violated at the λ_c = 1.5 switch of the torsional mode, by less than 0.1 %. What does hold is the _partial theorem (see its comment for what is missing)."
  },
  {
   "property": "C92",
   "status": "partial",
   "theorems": [
    "C92_unit_independence_refuted",
    "C92_unit_independence_partial"
   ],
   "note": "False of the code as it stands, shown by the _refuted theorem. Violated for sections without a symmetry: a coefficient of the cubic in f_oc_unsymmetric is dimensionally inconsistent; an angle given in mm has no result. What does hold is the _partial theorem (see its comment for what is missing)."
  },
  {
   "property": "C93",
   "status": "proved",
   "theorems": [
    "C93_reference_moment_units",
    "C93_factors_have_no_unit"
   ],
   "note": ""
  },
  {
   "property": "C94",
   "status": "partial",
   "theorems": [
    "C94_check_follows_its_beam_refuted",
    "C94_appended_element_refuted",
    "C94_check_follows_its_beam_partial",
    "C94_check_follows_its_steel_beam_partial",
    "C94_constructor_refines"
   ],
   "note": "False of the code as it stands, shown by the _refuted theorem. Violated: the AS4100 sections are wrapped once, in the constructor; after element.section = ... the old section is rated; after appending to the list of elements, IndexError. What does hold is the _partial theorem (see its comment for what is missing)."
  },
  {
   "property": "C95",
   "status": "partial",
   "theorems": [
    "C95_only_steel_is_rated_refuted",
    "C95_only_steel_is_rated_partial"
   ],
   "note": "False of the code as it stands, shown by the _refuted theorem. Violated: the material type is only checked in the constructor. What does hold is the _partial theorem (see its comment for what is missing)."
  },
  {
   "property": "C96",
   "status": "partial",
   "theorems": [
    "C96_beam_stays_consistent_refuted",
    "C96_deleted_load_case_refuted",
    "C96_emptied_list_refuted",
    "C96_beam_stays_consistent_partial"
   ],
   "note": "False of the code as it stands, shown by the _refuted theorem. Violated: the Beam keeps the caller's list, an Element the caller's dict, and both are handed out. What does hold is the _partial theorem (see its comment for what is missing)."
  },
  {
   "property": "C97",
   "status": "proved",
   "theorems": [
    "C97_frame",
    "C97_frame_beam"
   ],
   "note": ""
  },
  {
   "property": "C98",
   "status": "proved",
   "theorems": [
    "C98_element",
    "C98_circle",
    "C98_element_floats",
    "C98_circle_floats"
   ],
   "note": ""
  },
  {
   "property": "C99",
   "status": "proved",
   "theorems": [
    "C99_loads",
    "C99_sections"
   ],
   "note": ""
  },
  {
   "property": "C100",
   "status": "proved",
   "theorems": [
    "C100_list_positions",
    "C100_loads",
    "C100_sections",
    "C100_capacity",
    "C100_utilisation"
   ],
   "note": ""
  },
  {
   "property": "C101",
   "status": "partial",
   "theorems": [
    "C101_refuted",
    "C101_loads_partial",
    "C101_tables",
    "C101_sections"
   ],
   "note": "False of the code as it stands, shown by the _refuted theorem. Violated on elements without length whose table does not reach from 0 to 1: their local positions are shifted by 1. What does hold is the _partial theorem (see its comment for what is missing)."
  },
  {
   "property": "C102",
   "status": "proved",
   "theorems": [
    "C102_nothing_between_is_more_extreme",
    "C102_every_reported_value_occurs"
   ],
   "note": ""
  },
  {
   "property": "C103",
   "status": "proved",
   "theorems": [
    "C103_worst_anywhere",
    "C103_any_number_of_points",
    "C103_no_single_position_is_worse"
   ],
   "note": ""
  },
  {
   "property": "C104",
   "status": "proved",
   "theorems": [
    "C104_cutting",
    "C104_joining_left",
    "C104_joining_right",
    "C104_joining_equal_capacities",
    "C104_mirrored"
   ],
   "note": ""
  },
  {
   "property": "C105",
   "status": "proved",
   "theorems": [
    "C105_equivalence",
    "C105_equivalence_doubles",
    "C105_meaning",
    "C105_interchangeable_accepted",
    "C105_interchangeable",
    "C105_shipped"
   ],
   "note": ""
  },
  {
   "property": "C106",
   "status": "partial",
   "theorems": [
    "C106_pin_defaults_refuted",
    "C106_pin_areas_partial",
    "C106_pin_thickness_partial"
   ],
   "note": "False of the code as it stands, shown by the _refuted theorem. Violated: in s7_5_a_min_thickness the factor 0.25 is written as an annotation, so the argument has no default. What does hold is the _partial theorem (see its comment for what is missing)."
  },
  {
   "property": "C107",
   "status": "partial",
   "theorems": [
    "C107_default_reference_stress_refuted",
    "C107_default_reference_stress_partial"
   ],
   "note": "False of the code as it stands, shown by the _refuted theorem. Violated: the plate functions default to 250, the compression functions to 250e6; a slender plate loses 99.9 % of its effective area. What does hold is the _partial theorem (see its comment for what is missing)."
  },
  {
   "property": "C108",
   "status": "proved",
   "theorems": [
    "C108_segment_capacity_exists",
    "C108_falls_with_effective_length",
    "C108_fewer_partial_ends"
   ],
   "note": ""
  },
  {
   "property": "C109",
   "status": "partial",
   "theorems": [
    "C109_single_weld_refuted",
    "C109_single_weld_partial"
   ],
   "note": "False of the code as it stands, shown by the _refuted theorem. Violated: type(v_w) == float refuses ints and numpy floats with a TypeError. What does hold is the _partial theorem (see its comment for what is missing)."
  },
  {
   "property": "C110",
   "status": "proved",
   "theorems": [
    "C110_plate_capacity",
    "C110_plate_capacity_grows"
   ],
   "note": ""
  },
  {
   "property": "C111",
   "status": "proved",
   "theorems": [
    "C111_loads_ignore_sections",
    "C111_capacity_ignores_loads"
   ],
   "note": ""
  },
  {
   "property": "C112",
   "status": "proved",
   "theorems": [
    "C112_floats_monotone"
   ],
   "note": ""
  },
  {
   "property": "C113",
   "status": "partial",
   "theorems": [
    "C113_floats_envelope_refuted",
    "C113_floats_infinite_refuted",
    "C113_floats_envelope_partial"
   ],
   "note": "False of the code as it stands, shown by the _refuted theorem. Violated: rounding can exceed the right neighbour by an ulp, e.g. 0 at 1/7 and 29 at 6/7; rows less than 1e-300 apart can give inf. What does hold is the _partial theorem (see its comment for what is missing)."
  },
  {
   "property": "C114",
   "status": "proved",
   "theorems": [
    "C114_floats_accurate"
   ],
   "note": ""
  },
  {
   "property": "C115",
   "status": "proved",
   "theorems": [
    "C115_floats_utilisation"
   ],
   "note": ""
  },
  {
   "property": "C116",
   "status": "proved",
   "theorems": [
    "C116_floats_capacity"
   ],
   "note": ""
  },
  {
   "property": "C117",
   "status": "proved",
   "theorems": [
    "C117_floats_design"
   ],
   "note": ""
  },
  {
   "property": "C118",
   "status": "proved",
   "theorems": [
    "C118_floats_tension_capacity",
    "C118_floats_tension_area",
    "C118_same_program"
   ],
   "note": ""
  },
  {
   "property": "C119",
   "status": "proved",
   "theorems": [
    "C119_floats_shear_products",
    "C119_floats_interface",
    "C119_floats_welds",
    "C119_floats_web_factor",
    "C119_floats_stress_factor",
    "C119_same_program"
   ],
   "note": ""
  },
  {
   "property": "C120",
   "status": "proved",
   "theorems": [
    "C120_floats_bending_products",
    "C120_floats_moment_factor",
    "C120_floats_twist_factor",
    "C120_floats_reference_moment",
    "C120_same_program"
   ],
   "note": ""
  },
  {
   "property": "C121",
   "status": "proved",
   "theorems": [
    "C121_floats_compression_products",
    "C121_floats_euler",
    "C121_floats_polar_radius",
    "C121_floats_torsion",
    "C121_floats_modified_slenderness",
    "C121_same_program"
   ],
   "note": ""
  },
  {
   "property": "C122",
   "status": "partial",
   "theorems": [
    "C122_floats_design_area_partial",
    "C122_floats_design_area_refuted"
   ],
   "note": "False of the code as it stands, shown by the _refuted theorem. Violated: 11000 on fy = 250, fu = 410 gives 10999.999999999998; the capacity is always within 2^-49 of the load. What does hold is the _partial theorem (see its comment for what is missing)."
  },
  {
   "property": "C123",
   "status": "partial",
   "theorems": [
    "C123_floats_slenderness_partial",
    "C123_floats_slenderness_refuted",
    "C123_same_program"
   ],
   "note": "False of the code as it stands, shown by the _refuted theorem. Violated: 0.0 for M_s / M_o = 2^27; the error is at most 2^-49 (1 + M_s / M_o), and the result positive and within 2^-28 up to a ratio of 1024. What does hold is the _partial theorem (see its comment for what is missing)."
  },
  {
   "property": "C124",
   "status": "partial",
   "theorems": [
    "C124_floats_member_factor_partial",
    "C124_floats_member_factor_refuted",
    "C124_floats_member_capacity_partial",
    "C124_covered",
    "C124_same_program"
   ],
   "note": "False of the code as it stands, shown by the _refuted theorem. Violated: a slenderness of 1e-8 gives alpha_c = 0.0 instead of 1. Proved for slendernesses up to 1000 that leave the slenderness lambda of the formula at least 1, which covers 13.5 to 1000 for every alpha_b, 7 to 1000 for alpha_b up to 0.8 and 1 to 1000 for alpha_b up to 0; for N_c from the section and the length on. What does hold is the _partial theorem (see its comment for what is missing)."
  },
  {
   "property": "C125",
   "status": "partial",
   "theorems": [
    "C125_floats_coupled_stress_partial",
    "C125_coupled_centroid",
    "C125_floats_coupled_stress_refuted"
   ],
   "note": "False of the code as it stands, shown by the _refuted theorem. Violated: r_x = 0.0891, r_y = 0.0517, A = 0.00762, J = 1.27835e-06, l = 3.52, E = 200e9, G = 80e9 gives the root of a negative number, so a complex stress and a TypeError. It can only happen for stresses within a thousandth of each other; else f_oxz is within 2^-35 of their sum. What does hold is the _partial theorem (see its comment for what is missing)."
  },
  {
   "property": "C126",
   "status": "proved",
   "theorems": [
    "C126_floats_torsional_capacity"
   ],
   "note": ""
  },
  {
   "property": "C127",
   "status": "proved",
   "theorems": [
    "C127_floats_compression_flexural",
    "C127_floats_compression_torsional",
    "C127_same_program"
   ],
   "note": ""
  },
  {
   "property": "C128",
   "status": "proved",
   "theorems": [
    "C128_same_slenderness",
    "C128_floats_plate_slenderness",
    "C128_floats_chs_slenderness",
    "C128_floats_plate_width",
    "C128_floats_chs_diameter",
    "C128_floats_plate_area",
    "C128_floats_form_factor",
    "C128_same_plate_area",
    "C128_same_chs_diameter"
   ],
   "note": ""
  },
  {
   "property": "C129",
   "status": "proved",
   "theorems": [
    "C129_floats_compression_least",
    "C129_floats_tension_least",
    "C129_floats_diameter_cap",
    "C129_floats_width_cap",
    "C129_floats_moment_cap"
   ],
   "note": ""
  },
  {
   "property": "C130",
   "status": "proved",
   "theorems": [
    "C130_floats_tension_grows",
    "C130_floats_area_grows",
    "C130_floats_shear_grows",
    "C130_floats_interface_grows",
    "C130_floats_welds_grow",
    "C130_floats_stress_factor",
    "C130_floats_bending_grows",
    "C130_floats_squash_grows",
    "C130_floats_euler_load",
    "C130_floats_euler_stress",
    "C130_floats_chs_slenderness",
    "C130_floats_width_grows",
    "C130_floats_form_factor"
   ],
   "note": ""
  },
  {
   "property": "C131",
   "status": "proved",
   "theorems": [
    "C131_floats_ends"
   ],
   "note": ""
  },
  {
   "property": "C132",
   "status": "proved",
   "theorems": [
    "C132_floats_beam_to_local",
    "C132_floats_local_to_beam",
    "C132_floats_round_trip"
   ],
   "note": ""
  },
  {
   "property": "C133",
   "status": "proved",
   "theorems": [
    "C133_floats_loads",
    "C133_floats_min_loads",
    "C133_floats_all_loads"
   ],
   "note": ""
  },
  {
   "property": "C134",
   "status": "proved",
   "theorems": [
    "C134_floats_stored_loads"
   ],
   "note": ""
  },
  {
   "property": "C135",
   "status": "proved",
   "theorems": [
    "C135_constructor",
    "C135_loads",
    "C135_sections",
    "C135_capacities",
    "C135_demand",
    "C135_utilisation"
   ],
   "note": ""
  },
  {
   "property": "C136",
   "status": "proved",
   "theorems": [
    "C136_table_read_back",
    "C136_input_loads",
    "C136_num_positions",
    "C136_counts",
    "C136_listed",
    "C136_unlisted",
    "C136_unlisted_is_KeyError",
    "C136_unlisted_min_positions"
   ],
   "note": ""
  },
  {
   "property": "C137",
   "status": "proved",
   "theorems": [
    "C137_tabulated",
    "C137_sampled"
   ],
   "note": ""
  },
  {
   "property": "C138",
   "status": "proved",
   "theorems": [
    "C138_loads",
    "C138_utilisation"
   ],
   "note": ""
  },
  {
   "property": "C139",
   "status": "proved",
   "theorems": [
    "C139_loads",
    "C139_utilisation",
    "C139_utilisation_at"
   ],
   "note": ""
  },
  {
   "property": "C140",
   "status": "proved",
   "theorems": [
    "C140_loads",
    "C140_utilisation",
    "C140_utilisation_at"
   ],
   "note": ""
  },
  {
   "property": "C141",
   "status": "proved",
   "theorems": [
    "C141_accepts_exactly"
   ],
   "note": ""
  },
  {
   "property": "C142",
   "status": "proved",
   "theorems": [
    "C142_positions"
   ],
   "note": ""
  },
  {
   "property": "C143",
   "status": "proved",
   "theorems": [
    "C143_tabulated",
    "C143_sampled"
   ],
   "note": ""
  },
  {
   "property": "C144",
   "status": "proved",
   "theorems": [
    "C144_terminates",
    "C144_default_limit",
    "C144_succeeds"
   ],
   "note": ""
  },
  {
   "property": "C145",
   "status": "partial",
   "theorems": [
    "C145_tiny_tolerance_refuted",
    "C145_sign_change_partial",
    "C145_same_sign_partial"
   ],
   "note": "False of the code as it stands, shown by the _refuted theorem. Violated: with a tolerance of 2^-700 and a function equal to 2^-600 everywhere the product underflows to zero and a root is reported; proved for tolerances of at least 2^-500. What does hold is the _partial theorem (see its comment for what is missing)."
  },
  {
   "property": "C146",
   "status": "proved",
   "theorems": [
    "C146_worst",
    "C146_worst_exact",
    "C146_refusal",
    "C146_more"
   ],
   "note": ""
  },
  {
   "property": "C147",
   "status": "partial",
   "theorems": [
    "C147_constructors",
    "C147_loads_partial",
    "C147_positions_partial",
    "C147_sections_partial",
    "C147_conversions_partial",
    "C147_positions_refuted",
    "C147_numbers_refuted",
    "C147_cases_refuted",
    "C147_tables_refuted"
   ],
   "note": "False of the code as it stands, shown by the _refuted theorem. Violated: a position that is an int raises TypeError, a negative number of positions ValueError, an unknown load case KeyError, a table out of order AssertionError; proved for load cases that every element stores with a non-empty table, positions that are not an int, numbers that are not negative. What does hold is the _partial theorem (see its comment for what is missing)."
  },
  {
   "property": "C148",
   "status": "partial",
   "theorems": [
    "C148_constructor_partial",
    "C148_tension_partial",
    "C148_refuted"
   ],
   "note": "False of the code as it stands, shown by the _refuted theorem. Violated: when the search for the load factor gives up, the check raises ValueError, for instance for a force of 1e-10 N; proved that nothing besides a BeamDesignError and ValueError escapes. What does hold is the _partial theorem (see its comment for what is missing)."
  },
  {
   "property": "C149",
   "status": "partial",
   "theorems": [
    "C149_refuted",
    "C149_stored_partial",
    "C149_extremes_partial"
   ],
   "note": "False of the code as it stands, shown by the _refuted theorem. Violated: the conversion of 0.2 of 3.0 m comes back as 0.20000000000000004, after the jump stored at 0.2, so a stored 1000 kN is never reported; proved for tables without jumps, with the error bounded by the steepest slope times the rounding of the position. What does hold is the _partial theorem (see its comment for what is missing)."
  },
  {
   "property": "C150",
   "status": "partial",
   "theorems": [
    "C150_refuted",
    "C150_partial"
   ],
   "note": "False of the code as it stands, shown by the _refuted theorem. Violated: on a 3 m bar of 20 mm with 1000 kN up to a jump at 0.2 of its length the check reports 0.0, although it reports more than 12 when asked for 0.6 m; proved for tables without jumps, for the first of the load cases. What does hold is the _partial theorem (see its comment for what is missing)."
  },
  {
   "property": "C151",
   "status": "partial",
   "theorems": [
    "C151_refuted",
    "C151_partial"
   ],
   "note": "False of the code as it stands, shown by the _refuted theorem. Violated: the difference of values near 2^1023 of opposite sign overflows, the next point is 0.0, and it is returned although the function there is -2^1023; proved for values of magnitude up to 2^1000. What does hold is the _partial theorem (see its comment for what is missing)."
  },
  {
   "property": "C152",
   "status": "proved",
   "theorems": [
    "C152_outcomes",
    "C152_limit"
   ],
   "note": ""
  },
  {
   "property": "C153",
   "status": "proved",
   "theorems": [
    "C153_thread_independent",
    "C153_capacities",
    "C153_same_program"
   ],
   "note": ""
  },
  {
   "property": "C154",
   "status": "partial",
   "theorems": [
    "C154_refuted",
    "C154_always_possible",
    "C154_partial"
   ],
   "note": "False of the code as it stands, shown by the _refuted theorem. What does hold is the _partial theorem (see its comment for what is missing)."
  },
  {
   "property": "C155",
   "status": "proved",
   "theorems": [
    "C155_broken_off_harmless"
   ],
   "note": ""
  },
  {
   "property": "C156",
   "status": "proved",
   "theorems": [
    "C156_wait_free"
   ],
   "note": ""
  },
  {
   "property": "C157",
   "status": "proved",
   "theorems": [
    "C157_converges",
    "C157_flat_function_fails"
   ],
   "note": ""
  },
  {
   "property": "C158",
   "status": "proved",
   "theorems": [
    "C158_filters_keep_everything",
    "C158_filter_meaning"
   ],
   "note": ""
  },
  {
   "property": "C159",
   "status": "partial",
   "theorems": [
    "C159_refuted",
    "C159_partial",
    "C159_capacities_partial"
   ],
   "note": "False of the code as it stands, shown by the _refuted theorem. What does hold is the _partial theorem (see its comment for what is missing)."
  },
  {
   "property": "C160",
   "status": "partial",
   "theorems": [
    "C160_refuted",
    "C160_partial",
    "C160_torsion_partial"
   ],
   "note": "False of the code as it stands, shown by the _refuted theorem. Violated: a single axis that is not exactly \"x\", e.g. \"X\", is taken for y. What does hold is the _partial theorem (see its comment for what is missing)."
  },
  {
   "property": "C161",
   "status": "partial",
   "theorems": [
    "C161_refuted",
    "C161_listed",
    "C161_listed_at",
    "C161_listed_without_case",
    "C161_partial",
    "C161_at_partial",
    "C161_positive_partial",
    "C161_table",
    "C161_table_at"
   ],
   "note": "False of the code as it stands, shown by the _refuted theorem. Violated: on an element of zero length the rows of a position are reported once for each of them, so Beam.get_loads grows with the square of the stored rows. What does hold is in the other theorems: the bound for positions, for tables, and for loads with the square of the rows on elements of zero length (none such: the bound as stated)."
  },
  {
   "property": "C162",
   "status": "partial",
   "theorems": [
    "C162_element_refuted",
    "C162_beam_refuted",
    "C162_symmetry_refuted",
    "C162_material_refuted",
    "C162_element_partial",
    "C162_beam_partial",
    "C162_beams_told_apart",
    "C162_circles_told_apart",
    "C162_symmetry_partial",
    "C162_double"
   ],
   "note": "False of the code as it stands, shown by the _refuted theorems. Violated: element.py line 207 prints the section as the material; a beam with an unknown length and a default Symmetry cannot be printed; materials with commas in their names can print alike. What does hold is in the other theorems."
  }
 ]
}