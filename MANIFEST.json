{
 "claims": [
  {
   "property": "C01",
   "status": "proved",
   "theorems": [
    "C01_vec_components",
    "C01_angles_then_vec",
    "C01_vec_then_angles"
   ],
   "note": ""
  },
  {
   "property": "C02",
   "status": "proved",
   "theorems": [
    "C02_xyz_nev",
    "C02_rigid"
   ],
   "note": ""
  },
  {
   "property": "C03",
   "status": "proved",
   "theorems": [
    "C03_dogleg_is_angle",
    "C03_dogleg_symmetric",
    "C03_dogleg_azimuth_offset",
    "C03_dogleg_azimuth_period",
    "C03_dogleg_zero",
    "C03_arcsin_domain"
   ],
   "note": "Angles are real numbers; rounding out of scope."
  },
  {
   "property": "C04",
   "status": "proved",
   "theorems": [
    "C04_step_is_arc",
    "C04_chord_length",
    "C04_straight",
    "C04_chord_not_longer",
    "C04_equal_angles",
    "C04_reverse"
   ],
   "note": ""
  },
  {
   "property": "C05",
   "status": "proved",
   "theorems": [
    "C05_insertion_changes_nothing",
    "C05_inserted_station",
    "C05_position_only_interpolation"
   ],
   "note": ""
  },
  {
   "property": "C06",
   "status": "proved",
   "theorems": [
    "C06_intervals",
    "C06_positions",
    "C06_accepts",
    "C06_prefix",
    "C06_translation"
   ],
   "note": ""
  },
  {
   "property": "C07",
   "status": "proved",
   "theorems": [
    "C07_dls"
   ],
   "note": ""
  },
  {
   "property": "C08",
   "status": "proved",
   "theorems": [
    "C08_rotation",
    "C08_vector_roundtrip",
    "C08_cov_roundtrip",
    "C08_tangent_axis",
    "C08_lateral_axis",
    "C08_variance",
    "C08_cov_structure"
   ],
   "note": ""
  },
  {
   "property": "C09",
   "status": "proved",
   "theorems": [
    "C09_unpack_pack",
    "C09_pack_symmetric",
    "C09_pack_unpack",
    "C09_sigmas",
    "C09_cov_from_vec",
    "C09_make_cov",
    "C09_make_cov_diagonal"
   ],
   "note": ""
  },
  {
   "property": "C10",
   "status": "proved",
   "theorems": [
    "C10_inverse",
    "C10_value",
    "C10_specials",
    "C10_forms_agree_except_at_zero"
   ],
   "note": "Includes the exact set where the scalar and array forms disagree."
  },
  {
   "property": "C11",
   "status": "proved",
   "theorems": [
    "C11_roundtrip",
    "C11_fields"
   ],
   "note": "Sign loss on (-1,0) is part of the exact characterisation."
  },
  {
   "property": "C12",
   "status": "proved",
   "theorems": [
    "C12_implementations_agree",
    "C12_bearing",
    "C12_range",
    "C12_vertical",
    "C12_along",
    "C12_translate"
   ],
   "note": ""
  },
  {
   "property": "C13",
   "status": "proved",
   "theorems": [
    "C13_arc",
    "C13_arc_is_min_curve",
    "C13_arc_leaves_at_toolface",
    "C13_clc_joined"
   ],
   "note": ""
  },
  {
   "property": "C14",
   "status": "proved",
   "theorems": [
    "C14_consistent",
    "C14_input_kept",
    "C14_rebuild"
   ],
   "note": ""
  },
  {
   "property": "C15",
   "status": "proved",
   "theorems": [
    "C15_query_rewrites_header",
    "C15_rebuild_same_iff"
   ],
   "note": "The header rewrite is proved as the observable effect; rebuilding is unchanged iff the reference offset is 0."
  },
  {
   "property": "C16",
   "status": "proved",
   "theorems": [
    "C16_lookup",
    "C16_at_a_station"
   ],
   "note": ""
  },
  {
   "property": "C17",
   "status": "proved",
   "theorems": [
    "C17_rows",
    "C17_exact",
    "C17_short",
    "C17_every_station_refuted"
   ],
   "note": "The unrestricted claim that every station is returned is refuted (rounding to four decimals); proved exactly otherwise. Exact reversals between stations, where the target vector is perturbed at random, are excluded."
  },
  {
   "property": "C18",
   "status": "proved",
   "theorems": [
    "C18_top_down",
    "C18_bottom_up",
    "C18_complete_top_down",
    "C18_complete_bottom_up",
    "C18_built_by_lengths",
    "C18_any_length_refuted"
   ],
   "note": ""
  },
  {
   "property": "C19",
   "status": "proved",
   "theorems": [
    "C19_depth",
    "C19_out_of_range",
    "C19_missing_length"
   ],
   "note": ""
  },
  {
   "property": "C20",
   "status": "proved",
   "theorems": [
    "C20_balance",
    "C20_order",
    "C20_torque",
    "C20_frictionless",
    "C20_buoyancy",
    "C20_angles"
   ],
   "note": ""
  },
  {
   "property": "C21",
   "status": "proved",
   "theorems": [
    "C21_never_constructed"
   ],
   "note": "Whatever the steps before the look-up do (they are an arbitrary outcome), construction never succeeds; with complete strings the error is the TypeError of indexing an int."
  },
  {
   "property": "C22",
   "status": "proved",
   "theorems": [
    "C22_closed",
    "C22_indices",
    "C22_consistent_winding_refuted"
   ],
   "note": "Consistent winding is refuted for every n and rows; connectedness is proved as well."
  },
  {
   "property": "C23",
   "status": "proved",
   "theorems": [
    "C23_windows",
    "C23_default_raises"
   ],
   "note": "Fuel bounds the loop; any fuel of at least stop-start iterations suffices."
  },
  {
   "property": "C24",
   "status": "proved",
   "theorems": [
    "C24_source_valid",
    "C24_source_first",
    "C24_source_first_given",
    "C24_totals",
    "C24_json_totals"
   ],
   "note": ""
  },
  {
   "property": "C25",
   "status": "proved",
   "theorems": [
    "C25_jacobian",
    "C25_one_pass",
    "C25_error_vectors"
   ],
   "note": ""
  },
  {
   "property": "C26",
   "status": "proved",
   "theorems": [
    "C26_systematic_law",
    "C26_random_law",
    "C26_magnitude_scale",
    "C26_causality"
   ],
   "note": ""
  },
  {
   "property": "C27",
   "status": "proved",
   "theorems": [
    "C27_json_fails",
    "C27_modes"
   ],
   "note": ""
  },
  {
   "property": "C28",
   "status": "proved",
   "theorems": [
    "C28_decisions",
    "C28_quantities",
    "C28_no_uncertainty",
    "C28_monotone",
    "C28_distance",
    "C28_monotone_everywhere_refuted"
   ],
   "note": "Monotonicity is proved while the wells do not touch, reversed for overlapping wells, refuted without the restriction."
  },
  {
   "property": "C29",
   "status": "proved",
   "theorems": [
    "C29_standard_deviation",
    "C29_coincident",
    "C29_additive",
    "C29_nan",
    "C29_swap"
   ],
   "note": ""
  },
  {
   "property": "C30",
   "status": "proved",
   "theorems": [
    "C30_zero_at_kop",
    "C30_psd",
    "C30_systematic",
    "C30_kop_index",
    "C30_random_psd_refuted"
   ],
   "note": "Positive semidefiniteness for random sources is refuted in general and proved for the stated classes of sources."
  },
  {
   "property": "C31",
   "status": "proved",
   "theorems": [
    "C31_closest",
    "C31_best_of_two",
    "C31_nearest_station"
   ],
   "note": "For every optimiser that stays in bounds and does not worsen its start."
  },
  {
   "property": "C32",
   "status": "proved",
   "theorems": [
    "C32_accepted",
    "C32_method",
    "C32_outcomes",
    "C32_presence_only_refuted"
   ],
   "note": "C32_accepted and C32_method characterise acceptance and choice exactly; C32_presence_only_refuted shows that the choice also depends on the geometry, so the last clause of the statement is false. Curve-hold-curve results come from an iterative solver and are covered by C36, C37."
  },
  {
   "property": "C33",
   "status": "proved",
   "theorems": [
    "C33_reaches",
    "C33_solves",
    "C33_twice_radius",
    "C33_every_radius_refuted"
   ],
   "note": "Excludes targets exactly twice the design radius off the start axis, where the returned dogleg is 0 and the returned path is no path (C33_twice_radius, C33_every_radius_refuted)."
  },
  {
   "property": "C34",
   "status": "proved",
   "theorems": [
    "C34_reaches",
    "C34_solves",
    "C34_largest_radius",
    "C34_tolerance_band"
   ],
   "note": "Targets level with the start (half circle) are excluded: there the code divides by the tangent of a right angle. C34_tolerance_band: within the tolerance band below the critical radius the arc keeps the design radius and misses the target by less than min_error times the distance."
  },
  {
   "property": "C35",
   "status": "proved",
   "theorems": [
    "C35_curve",
    "C35_hold",
    "C35_no_step",
    "C35_connection",
    "C35_zero_length"
   ],
   "note": "Curve-hold-curve sections are covered by C75."
  },
  {
   "property": "C36",
   "status": "proved",
   "theorems": [
    "C36_depths"
   ],
   "note": "The iterative solver is an arbitrary function on the state; only the start depth must be left alone."
  },
  {
   "property": "C37",
   "status": "proved",
   "theorems": [
    "C37_rescue",
    "C37_planarity",
    "C37_final",
    "C37_first_rescue",
    "C37_moving_target_refuted",
    "C37_first_rescue_cases"
   ],
   "note": "C37_first_rescue: with unit directions the hold length is never negative after the final pass, so the first rescue and the projection are dead code. C37_moving_target_refuted uses the move of C76."
  },
  {
   "property": "C38",
   "status": "proved",
   "theorems": [
    "C38_density",
    "C38_sum",
    "C38_nonnegative",
    "C38_recombined",
    "C38_fails"
   ],
   "note": ""
  },
  {
   "property": "C39",
   "status": "proved",
   "theorems": [
    "C39_ends",
    "C39_blocks",
    "C39_counts",
    "C39_blank",
    "C39_repeated_section_refuted",
    "C39_survey_data",
    "C39_no_tie"
   ],
   "note": "The loop of load is modelled with a fuel argument; C39_ends says the number of lines plus one always suffices. float() and int() are parameters."
  },
  {
   "property": "C40",
   "status": "proved",
   "theorems": [
    "C40_round_trip",
    "C40_writable",
    "C40_second_export_refuted",
    "C40_long_name"
   ],
   "note": "The conversion of text to numbers is a parameter assumed to understand decimal notation; P_Wbp4.plain_reader is one."
  },
  {
   "property": "C41",
   "status": "proved",
   "theorems": [
    "C41_kept",
    "C41_last",
    "C41_identical_only_refuted"
   ],
   "note": ""
  },
  {
   "property": "C42",
   "status": "proved",
   "theorems": [
    "C42_query",
    "C42_single",
    "C42_and_refuted"
   ],
   "note": "C42_and_refuted is a witness that the documented AND (all criteria, each element once) fails with two criteria."
  },
  {
   "property": "C43",
   "status": "proved",
   "theorems": [
    "C43_chain",
    "C43_end",
    "C43_cyclic",
    "C43_history",
    "C43_fresh_answer_refuted"
   ],
   "note": "Recursion is bounded by a fuel argument; C43_chain says that any depth beyond the chain length suffices, C43_cyclic that no depth suffices without an ending chain."
  },
  {
   "property": "C44",
   "status": "proved",
   "theorems": [
    "C44_accepted",
    "C44_calls",
    "C44_reads",
    "C44_unbound",
    "C44_override",
    "C44_only_numbers_refuted"
   ],
   "note": "Python values and functions are parameters of the model; parsing is not modelled, theorems range over all syntax trees."
  },
  {
   "property": "C45",
   "status": "proved",
   "theorems": [
    "C45_remove_duplicates",
    "C45_unordered_refuted"
   ],
   "note": "For rows in depth order; C45_unordered_refuted shows the order is needed."
  },
  {
   "property": "C46",
   "status": "proved",
   "theorems": [
    "C46_one_value_per_station",
    "C46_increment",
    "C46_overwrites_azimuth"
   ],
   "note": "Sign flip for azimuth differences above pi is proved, not assumed away."
  },
  {
   "property": "C47",
   "status": "proved",
   "theorems": [
    "C47_target_arc",
    "C47_repeat_differs_refuted"
   ],
   "note": "The statement that repeating the call gives the same result is refuted."
  },
  {
   "property": "C48",
   "status": "proved",
   "theorems": [
    "C48_pos_nev",
    "C48_agree",
    "C48_agree_refuted"
   ],
   "note": "Agreement is refuted for a non-zero start_xyz; exact relation proved."
  },
  {
   "property": "C49",
   "status": "proved",
   "theorems": [
    "C49_slice"
   ],
   "note": ""
  },
  {
   "property": "C50",
   "status": "proved",
   "theorems": [
    "C50_project_ahead_curve",
    "C50_project_ahead_straight"
   ],
   "note": ""
  },
  {
   "property": "C51",
   "status": "proved",
   "theorems": [
    "C51_tvd_query",
    "C51_tvd_query_refuted"
   ],
   "note": "Proved outside one excluded depth per interval, where the code returns a wrong station (refuted with a concrete survey)."
  },
  {
   "property": "C52",
   "status": "proved",
   "theorems": [
    "C52_unit_effect"
   ],
   "note": ""
  },
  {
   "property": "C53",
   "status": "proved",
   "theorems": [
    "C53_repeated_names",
    "C53_distinct_names"
   ],
   "note": ""
  },
  {
   "property": "C54",
   "status": "proved",
   "theorems": [
    "C54_top_only",
    "C54_too_deep"
   ],
   "note": ""
  },
  {
   "property": "C55",
   "status": "proved",
   "theorems": [
    "C55_own_radius_refuted"
   ],
   "note": "The exact mirrored law is part of C20_balance; the expected behaviour is refuted with a tapered string."
  },
  {
   "property": "C56",
   "status": "proved",
   "theorems": [
    "C56_shift",
    "C56_north_crossing"
   ],
   "note": "Datum independence holds without wrapping; the wrapped case is proved to give a strictly larger side force."
  },
  {
   "property": "C57",
   "status": "proved",
   "theorems": [
    "C57_depths",
    "C57_friction"
   ],
   "note": ""
  },
  {
   "property": "C58",
   "status": "proved",
   "theorems": [
    "C58_zero_iff_mass_balance",
    "C58_surface"
   ],
   "note": "About the objective function; the scipy optimiser itself is not modelled."
  },
  {
   "property": "C59",
   "status": "proved",
   "theorems": [
    "C59_accepts",
    "C59_stations",
    "C59_intervals"
   ],
   "note": ""
  },
  {
   "property": "C60",
   "status": "proved",
   "theorems": [
    "C60_annulus",
    "C60_annulus_positive",
    "C60_conversion"
   ],
   "note": ""
  },
  {
   "property": "C61",
   "status": "proved",
   "theorems": [
    "C61_between_stations"
   ],
   "note": ""
  },
  {
   "property": "C62",
   "status": "proved",
   "theorems": [
    "C62_interpolated_covariance"
   ],
   "note": ""
  },
  {
   "property": "C63",
   "status": "proved",
   "theorems": [
    "C63_decision",
    "C63_rounded_refuted"
   ],
   "note": "The rounded value can hide a collision (refuted with a witness)."
  },
  {
   "property": "C64",
   "status": "proved",
   "theorems": [
    "C64_horizontal",
    "C64_toolface",
    "C64_degrees"
   ],
   "note": ""
  },
  {
   "property": "C65",
   "status": "proved",
   "theorems": [
    "C65_sigma_from_kop"
   ],
   "note": ""
  },
  {
   "property": "C66",
   "status": "proved",
   "theorems": [
    "C66_circle",
    "C66_ellipse",
    "C66_semi_axes"
   ],
   "note": "numpy eigh is a parameter: the theorem holds for any unit eigenvector."
  },
  {
   "property": "C67",
   "status": "proved",
   "theorems": [
    "C67_pedal_curve",
    "C67_opposite"
   ],
   "note": ""
  },
  {
   "property": "C68",
   "status": "proved",
   "theorems": [
    "C68_same_cycle",
    "C68_vertices_kept",
    "C68_fails",
    "C68_direction"
   ],
   "note": "The KD-tree query is an arbitrary function returning a valid index."
  },
  {
   "property": "C69",
   "status": "proved",
   "theorems": [
    "C69_vertices",
    "C69_pedal_ring_size",
    "C69_odd_pedal_refuted"
   ],
   "note": "C69_odd_pedal_refuted is the negative part, for 3 <= rings < n-1."
  },
  {
   "property": "C70",
   "status": "proved",
   "theorems": [
    "C70_within_tolerance",
    "C70_distinct_points_refuted"
   ],
   "note": ""
  },
  {
   "property": "C71",
   "status": "proved",
   "theorems": [
    "C71_min_curve"
   ],
   "note": ""
  },
  {
   "property": "C72",
   "status": "proved",
   "theorems": [
    "C72_kept",
    "C72_ahead_refuted",
    "C72_forced_refuted"
   ],
   "note": "Both exceptions are refutation theorems with witnesses."
  },
  {
   "property": "C73",
   "status": "proved",
   "theorems": [
    "C73_hold"
   ],
   "note": ""
  },
  {
   "property": "C74",
   "status": "proved",
   "theorems": [
    "C74_path",
    "C74_missed"
   ],
   "note": "An arc between equal or opposite directions is not determined by them and is excluded; the stored first angle may be off by 1e-9."
  },
  {
   "property": "C75",
   "status": "proved",
   "theorems": [
    "C75_grid"
   ],
   "note": ""
  },
  {
   "property": "C76",
   "status": "proved",
   "theorems": [
    "C76_moved",
    "C76_start_kept_refuted"
   ],
   "note": "C76_moved is an exact characterisation of the first look-ups of the solver; C76_start_kept_refuted is a witness for a moved start."
  },
  {
   "property": "C77",
   "status": "proved",
   "theorems": [
    "C77_reaches",
    "C77_unreachable",
    "C77_straight",
    "C77_behind",
    "C77_agrees"
   ],
   "note": "Targets exactly twice the radius off the start axis are excluded as in C33."
  },
  {
   "property": "C78",
   "status": "proved",
   "theorems": [
    "C78_content",
    "C78_found",
    "C78_own_surveys_refuted"
   ],
   "note": ""
  },
  {
   "property": "C79",
   "status": "proved",
   "theorems": [
    "C79_stations",
    "C79_untied",
    "C79_root"
   ],
   "note": "Membership is characterised; sorted() by depth does not change it."
  },
  {
   "property": "C80",
   "status": "proved",
   "theorems": [
    "C80_round_trip",
    "C80_digits"
   ],
   "note": "For plans without a parent file. Time stamp and comments are arbitrary texts."
  },
  {
   "property": "C81",
   "status": "proved",
   "theorems": [
    "C81_location",
    "C81_bound"
   ],
   "note": ""
  },
  {
   "property": "C82",
   "status": "proved",
   "theorems": [
    "C82_geometry",
    "C82_no_colour"
   ],
   "note": ""
  },
  {
   "property": "C83",
   "status": "proved",
   "theorems": [
    "C83_accelerometer_z_bias",
    "C83_accelerometer_z_scale",
    "C83_magnetometer_z_bias",
    "C83_magnetometer_z_scale",
    "C83_accelerometer_xy_bias",
    "C83_magnetometer_xy_bias",
    "C83_rates_unique",
    "C83_weights_unique"
   ],
   "note": "The sensor readings and the computed angles are specified in Spec_Weights (surveyed, response), independently of the weight functions."
  },
  {
   "property": "C84",
   "status": "proved",
   "theorems": [
    "C84_accelerometer_bias",
    "C84_magnetometer_bias",
    "C84_accelerometer_bias_axial",
    "C84_magnetometer_bias_axial",
    "C84_accelerometer_scale",
    "C84_magnetometer_scale",
    "C84_accelerometer_scale_axial",
    "C84_magnetometer_scale_axial"
   ],
   "note": ""
  },
  {
   "property": "C85",
   "status": "proved",
   "theorems": [
    "C85_accelerometer_bias",
    "C85_magnetometer_bias",
    "C85_accelerometer_z_scale",
    "C85_field_strength",
    "C85_dip",
    "C85_accelerometer_z_bias",
    "C85_accelerometer_z_bias_iff",
    "C85_accelerometer_z_bias_refuted",
    "C85_rates_exist",
    "C85_rates_unique"
   ],
   "note": "The axial correction is specified as a stationary point of the field mismatch (Spec_Weights.corrected). ABIZ is refuted with a witness and characterised exactly."
  },
  {
   "property": "C86",
   "status": "proved",
   "theorems": [
    "C86_all_directions",
    "C86_interval_terms",
    "C86_e_terms_iff",
    "C86_weights_unique",
    "C86_tilt_unique"
   ],
   "note": "XYM3E/XYM4E: exact condition; the full claim is false of the code for azimuths with a negative cosine."
  },
  {
   "property": "C87",
   "status": "proved",
   "theorems": [
    "C87_north",
    "C87_east",
    "C87_north_near",
    "C87_east_near",
    "C87_later_stations",
    "C87_later_stations_refuted",
    "C87_north_e",
    "C87_east_e",
    "C87_e_zero_refuted",
    "C87_north_l",
    "C87_east_l",
    "C87_l_axes_refuted",
    "C87_cna",
    "C87_accelerometer",
    "C87_accelerometer_axial",
    "C87_accelerometer_first_refuted"
   ],
   "note": "Theorems with the suffix _refuted show where the vertical treatment is not what the neighbouring stations get."
  },
  {
   "property": "C88",
   "status": "proved",
   "theorems": [
    "C88_azimuth",
    "C88_high_side",
    "C88_directions",
    "C88_random",
    "C88_dispatch"
   ],
   "note": ""
  },
  {
   "property": "C89",
   "status": "proved",
   "theorems": [
    "C89_totals",
    "C89_defined_iff"
   ],
   "note": ""
  },
  {
   "property": "C90",
   "status": "proved",
   "theorems": [
    "C90_plain",
    "C90_axial_iff",
    "C90_intervals_iff",
    "C90_unknown",
    "C90_reference",
    "C90_short"
   ],
   "note": "A result with inf or nan is the outcome NotFinite. tan at a right angle counts as not finite (python returns about 1.6e16)."
  },
  {
   "property": "C91",
   "status": "proved",
   "theorems": [
    "C91_propagation"
   ],
   "note": ""
  },
  {
   "property": "C92",
   "status": "proved",
   "theorems": [
    "C92_toolface_start",
    "C92_toolface_last",
    "C92_toolface_straight"
   ],
   "note": ""
  },
  {
   "property": "C93",
   "status": "proved",
   "theorems": [
    "C93_last",
    "C93_last_exists",
    "C93_first",
    "C93_every",
    "C93_dls_first",
    "C93_dls"
   ],
   "note": ""
  },
  {
   "property": "C94",
   "status": "proved",
   "theorems": [
    "C94_interior",
    "C94_interior_iff",
    "C94_interior_refuted"
   ],
   "note": "interior_rates is exact; that the rates are those of a section at the station is refuted in general and characterised by an iff."
  },
  {
   "property": "C95",
   "status": "proved",
   "theorems": [
    "C95_continues_the_arc",
    "C95_continues_the_line",
    "C95_explicit",
    "C95_vertical",
    "C95_vertical_refuted",
    "C95_feet_refuted"
   ],
   "note": "Feet and vertical last stations are exact statements of the wrong behaviour, with the suffix _refuted."
  },
  {
   "property": "C96",
   "status": "proved",
   "theorems": [
    "C96_section",
    "C96_straight_section",
    "C96_first_radius",
    "C96_centres",
    "C96_first_half_iff",
    "C96_straight"
   ],
   "note": ""
  },
  {
   "property": "C97",
   "status": "proved",
   "theorems": [
    "C97_outcomes",
    "C97_given",
    "C97_omitted",
    "C97_all_given",
    "C97_omitted_dip_reversed",
    "C97_dip_from_location",
    "C97_degrees_or_radians",
    "C97_default_limit_refuted",
    "C97_date_iff",
    "C97_units"
   ],
   "note": "Calculator, clock and date parser are arguments (M_Header.world). get_factors_from_x_y is modelled only in its sign convention for the dip."
  },
  {
   "property": "C98",
   "status": "proved",
   "theorems": [
    "C98_success",
    "C98_failures",
    "C98_missing_covariance",
    "C98_values",
    "C98_rows_iff",
    "C98_positions",
    "C98_cut_and_join"
   ],
   "note": "Exact success condition; failures for feet, magnetic reference and missing covariances are exact."
  },
  {
   "property": "C99",
   "status": "proved",
   "theorems": [
    "C99_interpolated",
    "C99_at_station",
    "C99_psd",
    "C99_symmetric",
    "C99_between",
    "C99_lost_station_refuted"
   ],
   "note": "The separation hypothesis is needed: see C99_lost_station_refuted."
  },
  {
   "property": "C100",
   "status": "proved",
   "theorems": [
    "C100_neither",
    "C100_one",
    "C100_both",
    "C100_radius"
   ],
   "note": ""
  },
  {
   "property": "C101",
   "status": "proved",
   "theorems": [
    "C101_ascending",
    "C101_first_last",
    "C101_boundaries",
    "C101_rounding",
    "C101_shape",
    "C101_points",
    "C101_rates",
    "C101_toolface",
    "C101_resurvey_success",
    "C101_resurvey_rows",
    "C101_reproduces",
    "C101_arcs",
    "C101_merged_arcs_refuted"
   ],
   "note": "Reproduction is stated for grid-referenced surveys; C101_resurvey_rows gives the exact azimuth shift for the other references. The scipy minimiser that picks the tolerance is not modelled; the value it minimises is."
  },
  {
   "property": "C102",
   "status": "proved",
   "theorems": [
    "C102_sections",
    "C102_index",
    "C102_modified_index",
    "C102_sign",
    "C102_modified_sign",
    "C102_stretched_grid_refuted",
    "C102_coefficient",
    "C102_modified_coefficient",
    "C102_keywords",
    "C102_method_tolerance"
   ],
   "note": "Stations that coincide with the start of their section (zero chord) are excluded by hypothesis."
  },
  {
   "property": "C103",
   "status": "proved",
   "theorems": [
    "C103_value",
    "C103_feet"
   ],
   "note": "C103_feet records the missing unit conversion."
  },
  {
   "property": "C104",
   "status": "proved",
   "theorems": [
    "C104_success",
    "C104_header",
    "C104_originals",
    "C104_added",
    "C104_first_half",
    "C104_no_noise",
    "C104_depth_order_refuted",
    "C104_vertical_refuted"
   ],
   "note": "The vertical and over-half-turn behaviours are recorded by the theorems with the suffix _refuted."
  },
  {
   "property": "C105",
   "status": "proved",
   "theorems": [
    "C105_success",
    "C105_nodes",
    "C105_best",
    "C105_attainable",
    "C105_shortest_refuted",
    "C105_negative_refuted"
   ],
   "note": "The long way round and negative severities are recorded by the theorems with the suffix _refuted."
  },
  {
   "property": "C106",
   "status": "proved",
   "theorems": [
    "C106_straight",
    "C106_missing",
    "C106_connections",
    "C106_reaches",
    "C106_max_length_refuted",
    "C106_over_half_turn_refuted"
   ],
   "note": "The ignored maximum length and the answers over half a turn are recorded by the theorems with the suffix _refuted."
  },
  {
   "property": "C107",
   "status": "proved",
   "theorems": [
    "C107_connections",
    "C107_failures",
    "C107_integers",
    "C107_integers_refuted",
    "C107_scalar_refuted"
   ],
   "note": "The truncated integer directions and the silently empty result are recorded by the theorems with the suffix _refuted."
  },
  {
   "property": "C108",
   "status": "proved",
   "theorems": [
    "C108_sections",
    "C108_outcome",
    "C108_first_jump",
    "C108_fit_refuted"
   ],
   "note": "Connector and the scores are parameters; the unbounded score is recorded by the theorem with the suffix _refuted."
  },
  {
   "property": "C109",
   "status": "proved",
   "theorems": [
    "C109_refined_reference"
   ],
   "note": "scipy.signal.argrelmin is modelled with its defaults; the two scipy searches are parameters."
  },
  {
   "property": "C110",
   "status": "proved",
   "theorems": [
    "C110_refined_results",
    "C110_minimum_refuted"
   ],
   "note": "The factor below one that is not reported is recorded by the theorem with the suffix _refuted."
  },
  {
   "property": "C111",
   "status": "proved",
   "theorems": [
    "C111_radius",
    "C111_run_holes",
    "C111_other_units"
   ],
   "note": ""
  },
  {
   "property": "C112",
   "status": "proved",
   "theorems": [
    "C112_kick_off"
   ],
   "note": "The second shift of the azimuths for true and magnetic headers is part of the theorem."
  },
  {
   "property": "C113",
   "status": "proved",
   "theorems": [
    "C113_whole_run"
   ],
   "note": ""
  },
  {
   "property": "C114",
   "status": "proved",
   "theorems": [
    "C114_level_survey"
   ],
   "note": "The conditions are those under which the half-angle formula and np.isclose decide as intended; they are defined in Spec_Levels.v. Fuel stands for the number of turns of the loop: the result is reached for all large enough fuel."
  },
  {
   "property": "C115",
   "status": "proved",
   "theorems": [
    "C115_level_complete"
   ],
   "note": ""
  },
  {
   "property": "C116",
   "status": "proved",
   "theorems": [
    "C116_level_missed",
    "C116_level_feet"
   ],
   "note": "These are findings: the levels the documentation promises are missed on such wells."
  },
  {
   "property": "C117",
   "status": "proved",
   "theorems": [
    "C117_drawn_survey",
    "C117_curve_hold_sound",
    "C117_single_arc_sound",
    "C117_min_curve_sound",
    "C117_hold_sound"
   ],
   "note": "The sine of the turn must be at least 1e-10 (below that the interpolation formula divides by zero or is cut off). Curve-hold-curve connections, which come from the numerical solver, are not covered."
  },
  {
   "property": "C118",
   "status": "proved",
   "theorems": [
    "C118_when_long",
    "C118_wrong_side",
    "C118_misses",
    "C118_arc_wrong_side"
   ],
   "note": "A finding: interpolate_curve builds the plane of the turn from the cross product of the two directions, which points the other way beyond half a circle."
  },
  {
   "property": "C119",
   "status": "proved",
   "theorems": [
    "C119_chain",
    "C119_reaches",
    "C119_bit",
    "C119_design_ignored",
    "C119_rate"
   ],
   "note": "A finding: the third positional argument of the second Connector is pos1, not dls_design."
  },
  {
   "property": "C120",
   "status": "proved",
   "theorems": [
    "C120_kept",
    "C120_set",
    "C120_degrees_refuted"
   ],
   "note": "A finding: the header keeps degrees where the constructor and plots read radians."
  },
  {
   "property": "C121",
   "status": "proved",
   "theorems": [
    "C121_one_source",
    "C121_model",
    "C121_json",
    "C121_vertical_end",
    "C121_vertical_end_refuted",
    "C121_two_stations_refuted"
   ],
   "note": "Extends C26 (one error source with given weights) and C87 (XYM3, XYM4) to all weight functions and to whole models. A finding: the vertical end of a survey."
  },
  {
   "property": "C122",
   "status": "proved",
   "theorems": [
    "C122_unrecognised",
    "C122_missing",
    "C122_file",
    "C122_usable",
    "C122_errors",
    "C122_inc_only",
    "C122_gyro_file",
    "C122_gyro_file_refuted",
    "C122_gyro_usable",
    "C122_rev4",
    "C122_listed"
   ],
   "note": "The models are the data of the repository, generated into M_Bundle by tools/mkbundle.py. Findings: names without a file, models that never work, dependence on directory order. The exclusion of level east/west wells in the headers is not enforced by the code."
  },
  {
   "property": "C123",
   "status": "proved",
   "theorems": [
    "C123_table",
    "C123_totals",
    "C123_fails",
    "C123_zero_error_refuted"
   ],
   "note": "Sources are assumed to have distinct codes for the entries by source (the keys of a dictionary)."
  },
  {
   "property": "C124",
   "status": "proved",
   "theorems": [
    "C124_turned_survey",
    "C124_mirrored_survey",
    "C124_results",
    "C124_turned_run",
    "C124_refined",
    "C124_horizontal_bearing",
    "C124_toolface"
   ],
   "note": "The two minimisers (scipy) are arbitrary functions of the objective, so they give equal answers for equal objectives. Covariances are turned with the wells: the error models themselves are not covered here (gravity, field and their axes are tied to the frame)."
  },
  {
   "property": "C125",
   "status": "proved",
   "theorems": [
    "C125_sections",
    "C125_reported",
    "C125_bearing",
    "C125_first_section_refuted",
    "C125_without_data"
   ],
   "note": "The meshes and the collision manager (trimesh, fcl) are an arbitrary function of the section index and the sliced survey. Powell is any minimiser meeting never_worse. Finding: slice_survey hands grid azimuths to a header that may refer to true or magnetic north; interpolating in the slice then switches the shared header to grid, so only the first section is affected with return_data=True and all are with return_data=False."
  },
  {
   "property": "C126",
   "status": "proved",
   "theorems": [
    "C126_by_name",
    "C126_by_id",
    "C126_shadowed",
    "C126_graph",
    "C126_graph_parents"
   ],
   "note": "Attribute lists of elements are association lists. Finding: get_wellbore_ids is keyed by name, so a reused wellbore name hides the earlier wellbore from look-up by id and from the graph."
  },
  {
   "property": "C127",
   "status": "proved",
   "theorems": [
    "C127_hole_sections",
    "C127_hole_section_rows",
    "C127_rows_lost",
    "C127_look_up",
    "C127_case_made",
    "C127_case_attributes"
   ],
   "note": "Findings: _get_hole_section_data overwrites hole_section_data[k] for every row, keeping the last; make_case with an unknown id raises (case is None in _get_surveys: survey is unbound); assembly is overwritten by assembly_comp. Left out: a case element with its own survey_header attribute; exceptions for headers lacking the fields read in _get_surveys (C79 covers the assembled surveys)."
  },
  {
   "property": "C128",
   "status": "proved",
   "theorems": [
    "C128_profiles",
    "C128_no_profiles",
    "C128_tables",
    "C128_case_sorted",
    "C128_case_unsorted",
    "C128_attributes"
   ],
   "note": "float() is an arbitrary partial function to the reals; nan depths are outside. Which tables are attached (profile_tags) is modelled but not claimed."
  },
  {
   "property": "C129",
   "status": "proved",
   "theorems": [
    "C129_read_back",
    "C129_printed",
    "C129_written",
    "C129_three_values_with_symbols_refuted",
    "C129_sign_lost",
    "C129_tiny_seconds",
    "C129_float_minutes",
    "C129_any_case"
   ],
   "note": "The regular expression is run by a backtracking matcher written in Gallina (greedy, lazy, optional, alternatives, groups), exact for Latin-1 texts; float() of the seconds text and str() of floats are left out: seconds are compared as text. Findings: the quote is returned as a direction, negative latitudes lose their sign, tiny seconds are read as their mantissa, float rows give None."
  },
  {
   "property": "C130",
   "status": "proved",
   "theorems": [
    "C130_raises",
    "C130_rows",
    "C130_ends",
    "C130_file",
    "C130_tolerance_refuted"
   ],
   "note": "The optimiser is arbitrary (its result is a parameter); the values of vars(header) are given as text; fmt with 0 decimals, characters outside latin1 and a missing pandas are left out. Findings: save raises for every survey in feet; tolerance is not honoured with the default dls_cont=False; the TVDSS column has the opposite sign of survey_to_df."
  },
  {
   "property": "C131",
   "status": "proved",
   "theorems": [
    "C131_one_row_per_station",
    "C131_station",
    "C131_toolface",
    "C131_rates",
    "C131_turn_rate_refuted"
   ],
   "note": "The largest float is a parameter. Findings: NORTHING and EASTING are pos_nev (scaled, with start_xyz included), not n and e; infinite turn rates are shown as 1.8e308."
  },
  {
   "property": "C132",
   "status": "proved",
   "theorems": [
    "C132_readable",
    "C132_terms",
    "C132_header"
   ],
   "note": "Texts have characters below 256; opening the workbook (openpyxl) is left out; numbers in cells are finite; str of a number and float of a text are parameters. "
  },
  {
   "property": "C133",
   "status": "proved",
   "theorems": [
    "C133_codes",
    "C133_propagation",
    "C133_count",
    "C133_header",
    "C133_lost_refuted"
   ],
   "note": "Texts have characters below 256; opening the workbook (openpyxl) is left out; numbers in cells are finite; str of a number and float of a text are parameters. Finding: a model with both XCLA and XCLL loses one of them."
  },
  {
   "property": "C134",
   "status": "proved",
   "theorems": [
    "C134_latest",
    "C134_none"
   ],
   "note": "Texts have characters below 256; opening the workbook (openpyxl) is left out; numbers in cells are finite; str of a number and float of a text are parameters. The pattern is run by the backtracking matcher of C129."
  },
  {
   "property": "C135",
   "status": "proved",
   "theorems": [
    "C135_readable",
    "C135_stations",
    "C135_references"
   ],
   "note": "Texts have characters below 256; opening the workbook (openpyxl) is left out; numbers in cells are finite; str of a number and float of a text are parameters. Finding: a missing column reads as 0 where an empty cell reads as nan."
  },
  {
   "property": "C136",
   "status": "proved",
   "theorems": [
    "C136_totals_readable",
    "C136_totals",
    "C136_validation",
    "C136_order_refuted"
   ],
   "note": "Texts have characters below 256; opening the workbook (openpyxl) is left out; numbers in cells are finite; str of a number and float of a text are parameters. Finding: validation values are taken by position, not by name."
  },
  {
   "property": "C137",
   "status": "proved",
   "theorems": [
    "C137_source",
    "C137_name_clash_refuted",
    "C137_parts",
    "C137_sources"
   ],
   "note": "Texts have characters below 256; opening the workbook (openpyxl) is left out; numbers in cells are finite; str of a number and float of a text are parameters. Finding: generated block names can clash."
  },
  {
   "property": "C138",
   "status": "proved",
   "theorems": [
    "C138_report",
    "C138_runs",
    "C138_errors",
    "C138_zero_targets",
    "C138_by_depth_refuted"
   ],
   "note": "The error model (Survey, err.errors) is a parameter of the model; its computations are the subject of other properties. Findings: zero targets accept anything; totals are compared by row number."
  },
  {
   "property": "C139",
   "status": "proved",
   "theorems": [
    "C139_sources",
    "C139_exit_code",
    "C139_nothing_compared",
    "C139_totals_refuted"
   ],
   "note": "Printing of the summary is left out. Findings: the exit code ignores totals, missing sources and rows between stations."
  },
  {
   "property": "C140",
   "status": "proved",
   "theorems": [
    "C140_sigma_lines",
    "C140_station_lines",
    "C140_stations",
    "C140_order",
    "C140_tail_lost"
   ],
   "note": "Texts have characters below 256. Findings: the check for labels is dead code; the end of a file without station line is lost."
  },
  {
   "property": "C141",
   "status": "proved",
   "theorems": [
    "C141_aligned"
   ],
   "note": ""
  },
  {
   "property": "C142",
   "status": "proved",
   "theorems": [
    "C142_order",
    "C142_verdict",
    "C142_difference",
    "C142_undefined_refuted"
   ],
   "note": "Evaluating a formula is a parameter (see the interpreter properties); magnitudes are finite. Finding: max() ignores nan unless it comes first."
  },
  {
   "property": "C143",
   "status": "proved",
   "theorems": [
    "C143_verdict",
    "C143_difference",
    "C143_runs",
    "C143_relative_refuted"
   ],
   "note": "Evaluating a formula and calling a weight function are parameters. Finding: rtol and atol are unused."
  },
  {
   "property": "C144",
   "status": "proved",
   "theorems": [
    "C144_stations",
    "C144_outcome",
    "C144_index",
    "C144_distinct_refuted",
    "C144_feet_refuted"
   ],
   "note": "Findings: repeated bottoms give repeated stations; surveys in feet fail; the azimuth reference of the caller's header is overwritten; the new survey starts at the origin."
  },
  {
   "property": "C145",
   "status": "proved",
   "theorems": [
    "C145_read",
    "C145_fails",
    "C145_no_survey",
    "C145_factors_refuted"
   ],
   "note": "Cells as openpyxl gives them. Findings: factors are not matched with stations; make_survey asks for a well named offset that is never imported."
  },
  {
   "property": "C146",
   "status": "proved",
   "theorems": [
    "C146_made",
    "C146_transformed",
    "C146_shape",
    "C146_reduction_refuted"
   ],
   "note": "trimesh itself (validation, decimation) is not modelled, except that decimation returns a new mesh. Findings: the documented list fails; arrays fail as origin; the reduction is discarded."
  },
  {
   "property": "C147",
   "status": "proved",
   "theorems": [
    "C147_made",
    "C147_drawn"
   ],
   "note": "vedo is a parameter. Findings: polygons cannot be made; only circles can be drawn."
  },
  {
   "property": "C148",
   "status": "proved",
   "theorems": [
    "C148_raises",
    "C148_legs"
   ],
   "note": "Connector, from_connections on connections and utm are parameters. Finding: the function cannot be used."
  },
  {
   "property": "C149",
   "status": "proved",
   "theorems": [
    "C149_rewritten",
    "C149_no_power_left",
    "C149_twice",
    "C149_word_characters",
    "C149_blanks",
    "C149_upper_case_refuted"
   ],
   "note": "Regular expressions as matching functions over lists of characters. Findings: upper-case names are not translated (and then fail the whitelist, C44); ** groups to the right where ^ in a workbook groups to the left."
  },
  {
   "property": "C150",
   "status": "proved",
   "theorems": [
    "C150_connection",
    "C150_plan",
    "C150_survey",
    "C150_batch",
    "C150_origin_refuted",
    "C150_north_refuted"
   ],
   "note": "Curve-hold-curve solutions, which depend on the iterative solver, only as the outcome SolverOutcome. Findings: the relative tolerance of np.allclose grows with the coordinates; a vertical start given as a direction has azimuth 0."
  },
  {
   "property": "C151",
   "status": "proved",
   "theorems": [
    "C151_every",
    "C151_same",
    "C151_unknown",
    "C151_silent",
    "C151_vertical_refuted",
    "C151_vertical_function",
    "C151_abiz_refuted",
    "C151_amil",
    "C151_json_only",
    "C151_names",
    "C151_power_whole",
    "C151_power_inverse",
    "C151_power_real",
    "C151_power_negative",
    "C151_power_reading"
   ],
   "note": "The formulas are read from the files, rewritten, parsed and evaluated by the modelled interpreter (numpy functions over the reals). Findings: GField for Gfield, Bfield for BField and other names without a value silence eleven functions; ABIZ lacks a factor."
  },
  {
   "property": "C152",
   "status": "proved",
   "theorems": [
    "C152_usable",
    "C152_left_out",
    "C152_which"
   ],
   "note": "Covariances that contain an infinite or undefined entry count as not finite. Finding: tortuosity and gyro noise terms are left out of every gyro model."
  },
  {
   "property": "C153",
   "status": "proved",
   "theorems": [
    "C153_rev4",
    "C153_rev5",
    "C153_rev5_refuted",
    "C153_second_station",
    "C153_other_models"
   ],
   "note": "The codes are those of error_codes.yaml. Findings: two magnitudes for the declination in one release; the rule for the second station compares the name with rev5 and never applies under the accepted names."
  },
  {
   "property": "C154",
   "status": "proved",
   "theorems": [
    "C154_distance",
    "C154_straight",
    "C154_vertical_depth",
    "C154_turn",
    "C154_coordinates",
    "C154_units",
    "C154_between_stations",
    "C154_depths"
   ],
   "note": "A reversal (two neighbouring stations in exactly opposite directions) is excluded: the ratio factor is not defined there."
  },
  {
   "property": "C155",
   "status": "proved",
   "theorems": [
    "C155_readable",
    "C155_codes",
    "C155_agree",
    "C155_number_refuted",
    "C155_space_refuted",
    "C155_header_readable",
    "C155_header",
    "C155_header_same",
    "C155_gyro",
    "C155_gyro_blank_refuted",
    "C155_index",
    "C155_get_index",
    "C155_inverse",
    "C155_ignored_refuted",
    "C155_tools"
   ],
   "note": "Refuted parts are findings: the two readers differ on irregular sheets, a blank cell after a gyro section raises TypeError, and `continue` in the inner loop over sheet_ignore_list skips nothing. Opening workbooks and writing yaml files are not modelled."
  },
  {
   "property": "C156",
   "status": "proved",
   "theorems": [
    "C156_off",
    "C156_reachable",
    "C156_rejected",
    "C156_point",
    "C156_nan",
    "C156_place",
    "C156_planes",
    "C156_vertical_refuted",
    "C156_fails",
    "C156_end",
    "C156_succeeds",
    "C156_turn",
    "C156_same",
    "C156_closest_refuted",
    "C156_short_refuted"
   ],
   "note": "Refuted parts are findings: nan for every vertical start, a connection tighter than the design with the option set, and a reported end the reported turn does not reach."
  },
  {
   "property": "C157",
   "status": "proved",
   "theorems": [
    "C157_half",
    "C157_only_turn",
    "C157_sound",
    "C157_complete",
    "C157_forward",
    "C157_loop",
    "C157_passes",
    "C157_minimum",
    "C157_candidate",
    "C157_candidate_refuted",
    "C157_ways",
    "C157_choice",
    "C157_first",
    "C157_calls",
    "C157_one_call",
    "C157_path",
    "C157_error"
   ],
   "note": "C157_candidate_refuted records the finding that the fallback start points lie where the angle is 0/0. That the damped iteration converges is not claimed."
  },
  {
   "property": "C158",
   "status": "proved",
   "theorems": [
    "C158_binary64",
    "C158_relative",
    "C158_zero",
    "C158_absolute",
    "C158_north_refuted",
    "C158_arccos",
    "C158_arccos_cosine",
    "C158_ratio_factor"
   ],
   "note": "Exponents are unbounded in the model (no overflow or underflow). C158_north_refuted shows that the relative bound does not hold across north; C158_absolute is what holds there. C158_binary64 uses Flocq definitions of nearest rounding, with a correctly rounded library."
  },
  {
   "property": "C159",
   "status": "proved",
   "theorems": [
    "C159_positions",
    "C159_length",
    "C159_binary64"
   ],
   "note": "Exponents are unbounded in the model. The angles and depths are taken as the machine holds them: the conversion from degrees is not included."
  },
  {
   "property": "C160",
   "status": "proved",
   "theorems": [
    "C160_positions",
    "C160_direction",
    "C160_angles",
    "C160_turns",
    "C160_straight"
   ],
   "note": "Exact arithmetic; C159 bounds the rounding errors."
  },
  {
   "property": "C161",
   "status": "proved",
   "theorems": [
    "C161_made",
    "C161_position",
    "C161_vector",
    "C161_consistent",
    "C161_angles",
    "C161_vertical_refuted",
    "C161_no_direction",
    "C161_axes",
    "C161_rebuild",
    "C161_connection",
    "C161_chained",
    "C161_target_depth",
    "C161_survey"
   ],
   "note": "C161_vertical_refuted: a vertical node does not keep its azimuth. C161_target_depth: Connector(node1, node2) with a target node that has a position, a direction and a depth always raises. unit, cov_nev and further keywords of a node are not modelled. Zeros have no sign in the model: the azimuth numpy reports for a vertical direction can be 0 or pi."
  },
  {
   "property": "C162",
   "status": "proved",
   "theorems": [
    "C162_none",
    "C162_nearest",
    "C162_station",
    "C162_history",
    "C162_pedal_refuted"
   ],
   "note": "C162_pedal_refuted: stations are misattributed for odd n_verts with the pedal curve. The KD tree is any search that returns a nearest point; vedo, text formats and the dls in the text are not modelled."
  },
  {
   "property": "C163",
   "status": "proved",
   "theorems": [
    "C163_caps_refuted",
    "C163_edges_refuted",
    "C163_repaired",
    "C163_well_unchanged",
    "C163_turned_refuted"
   ],
   "note": "C163_caps_refuted, C163_edges_refuted and C163_turned_refuted are defects of the code. trimesh (unique rows, windings) is an argument with stated assumptions; plotly is not modelled."
  },
  {
   "property": "C164",
   "status": "proved",
   "theorems": [
    "C164_figure"
   ],
   "note": "plotly and the text format are not modelled."
  },
  {
   "property": "C165",
   "status": "proved",
   "theorems": [
    "C165_lengths",
    "C165_on_well"
   ],
   "note": "MeshClearance.get_lines (points of the collision library) is not modelled."
  },
  {
   "property": "C166",
   "status": "proved",
   "theorems": [
    "C166_wells",
    "C166_sites",
    "C166_case_name",
    "C166_cases",
    "C166_reused_refuted"
   ],
   "note": "C166_reused_refuted: a reused case id."
  },
  {
   "property": "C167",
   "status": "proved",
   "theorems": [
    "C167_station",
    "C167_depth",
    "C167_anywhere",
    "C167_crossing_refuted",
    "C167_search_refuted"
   ],
   "note": "C167_crossing_refuted and C167_search_refuted show that the reported distances alone do not bound the distance of the wells. Rounding is not modelled here."
  },
  {
   "property": "C168",
   "status": "proved",
   "theorems": [
    "C168_positions",
    "C168_every_depth",
    "C168_corkscrew"
   ],
   "note": "Exact arithmetic; the measured directions are taken as exact (C160 bounds the effect of their errors)."
  },
  {
   "property": "C169",
   "status": "proved",
   "theorems": [
    "C169_turn",
    "C169_nudged_refuted"
   ],
   "note": "The position reached by a half-circle turn is not stated: in floating point tan(pi/2) is a huge number, in the reals it has no value."
  },
  {
   "property": "C170",
   "status": "proved",
   "theorems": [
    "C170_wells_apart"
   ],
   "note": ""
  },
  {
   "property": "C171",
   "status": "proved",
   "theorems": [
    "C171_scene",
    "C171_seen",
    "C171_second_plot_refuted",
    "C171_panel"
   ],
   "note": ""
  },
  {
   "property": "C172",
   "status": "proved",
   "theorems": [
    "C172_terms",
    "C172_fails",
    "C172_limits",
    "C172_stated_maximum_refuted",
    "C172_files",
    "C172_warnings",
    "C172_stops",
    "C172_shared_file"
   ],
   "note": ""
  },
  {
   "property": "C173",
   "status": "proved",
   "theorems": [
    "C173_entries",
    "C173_names",
    "C173_identity",
    "C173_distinct_refuted",
    "C173_kind",
    "C173_short_name_refuted"
   ],
   "note": ""
  }
 ]
}