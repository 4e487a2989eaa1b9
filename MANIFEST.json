{
 "claims": [
  {
   "property": "C01",
   "status": "proved",
   "theorems": [
    "C01_section_bookkeeping",
    "C01_segment_order"
   ],
   "note": "any arithmetic"
  },
  {
   "property": "C02",
   "status": "proved",
   "theorems": [
    "C02_sections_partition_segment",
    "C02_tips_distinct"
   ],
   "note": ""
  },
  {
   "property": "C03",
   "status": "proved",
   "theorems": [
    "C03_planform_area_exact"
   ],
   "note": "positive span, cos(sweep)>0, exact arithmetic"
  },
  {
   "property": "C04",
   "status": "proved",
   "theorems": [
    "C04_chord_squared_integral_exact"
   ],
   "note": "positive span, exact arithmetic"
  },
  {
   "property": "C05",
   "status": "proved",
   "theorems": [
    "C05_frames_orthonormal",
    "C05_frame_orientation",
    "C05_frame_general"
   ],
   "note": ""
  },
  {
   "property": "C06",
   "status": "proved",
   "theorems": [
    "C06_left_mirrors_right"
   ],
   "note": "for every airplane built by any history of public calls"
  },
  {
   "property": "C07",
   "status": "proved",
   "theorems": [
    "C07_reference_area"
   ],
   "note": ""
  },
  {
   "property": "C08",
   "status": "proved",
   "theorems": [
    "C08_reference_lengths"
   ],
   "note": ""
  },
  {
   "property": "C09",
   "status": "proved",
   "theorems": [
    "C09_wings_sit_on_their_parents",
    "C09_displacing_a_parent",
    "C09_displacing_through_the_api"
   ],
   "note": ""
  },
  {
   "property": "C10",
   "status": "proved",
   "theorems": [
    "C10_position_queries_terminate",
    "C10_histories_without_self_attachment",
    "C10_self_attached_wing_never_answers"
   ],
   "note": ""
  },
  {
   "property": "C11",
   "status": "proved",
   "theorems": [
    "C11_add_wing_outcomes",
    "C11_atomicity_refuted"
   ],
   "note": ""
  },
  {
   "property": "C12",
   "status": "proved",
   "theorems": [
    "C12_cg_after_history",
    "C12_cg_never_returns_to_zero",
    "C12_zero_cg_in_file"
   ],
   "note": ""
  },
  {
   "property": "C13",
   "status": "proved",
   "theorems": [
    "C13_control_surface",
    "C13_zero_chord_surface"
   ],
   "note": ""
  },
  {
   "property": "C14",
   "status": "proved",
   "theorems": [
    "C14_unsealed_efficiency",
    "C14_sealed_keyword",
    "C14_is_sealed_ignored",
    "C14_documented_keyword_refuted"
   ],
   "note": ""
  },
  {
   "property": "C15",
   "status": "proved",
   "theorems": [
    "C15_airfoil_call",
    "C15_interpolation",
    "C15_bounds",
    "C15_airfoil_defaults_and_errors"
   ],
   "note": ""
  },
  {
   "property": "C16",
   "status": "proved",
   "theorems": [
    "C16_file_loads_iff_well_formed",
    "C16_file_equals_api_calls"
   ],
   "note": ""
  },
  {
   "property": "C17",
   "status": "proved",
   "theorems": [
    "C17_no_object_with_propellers",
    "C17_attribute_error",
    "C17_without_propellers",
    "C17_files_have_units"
   ],
   "note": ""
  },
  {
   "property": "C18",
   "status": "proved",
   "theorems": [
    "C18_freestream"
   ],
   "note": ""
  },
  {
   "property": "C19",
   "status": "proved",
   "theorems": [
    "C19_rotation_rates",
    "C19_omitted_rates_are_zero"
   ],
   "note": ""
  },
  {
   "property": "C20",
   "status": "proved",
   "theorems": [
    "C20_wing_wind_axes",
    "C20_wing_direction",
    "C20_propeller_wind_axes"
   ],
   "note": ""
  },
  {
   "property": "C21",
   "status": "proved",
   "theorems": [
    "C21_total_is_inviscid_plus_viscous"
   ],
   "note": ""
  },
  {
   "property": "C22",
   "status": "proved",
   "theorems": [
    "C22_lifting_line_equation",
    "C22_denominators_nonzero"
   ],
   "note": ""
  },
  {
   "property": "C23",
   "status": "proved",
   "theorems": [
    "C23_required_keys"
   ],
   "note": ""
  },
  {
   "property": "C24",
   "status": "proved",
   "theorems": [
    "C24_history_independence"
   ],
   "note": ""
  },
  {
   "property": "C25",
   "status": "proved",
   "theorems": [
    "C25_omitted_control_keeps_deflections",
    "C25_no_control_yet_is_zero",
    "C25_documented_default_refuted"
   ],
   "note": ""
  },
  {
   "property": "C26",
   "status": "proved",
   "theorems": [
    "C26_omitted_flow_leaks",
    "C26_documented_flow_after_head_on_calls",
    "C26_documented_default_refuted"
   ],
   "note": ""
  },
  {
   "property": "C27",
   "status": "proved",
   "theorems": [
    "C27_wing_results_alias",
    "C27_wing_results_stay_refuted",
    "C27_results_are_fresh_and_stay"
   ],
   "note": ""
  },
  {
   "property": "C28",
   "status": "proved",
   "theorems": [
    "C28_dynamic_pressure_similarity"
   ],
   "note": ""
  },
  {
   "property": "C29",
   "status": "proved",
   "theorems": [
    "C29_lateral_symmetry"
   ],
   "note": ""
  },
  {
   "property": "C30",
   "status": "proved",
   "theorems": [
    "C30_moment_transfer"
   ],
   "note": ""
  },
  {
   "property": "C31",
   "status": "proved",
   "theorems": [
    "C31_effective_deflection",
    "C31_deflection_in_solve"
   ],
   "note": ""
  },
  {
   "property": "C32",
   "status": "proved",
   "theorems": [
    "C32_stall_report"
   ],
   "note": ""
  },
  {
   "property": "C33",
   "status": "proved",
   "theorems": [
    "C33_solve_adds_the_parts",
    "C33_default_flow"
   ],
   "note": ""
  },
  {
   "property": "C34",
   "status": "proved",
   "theorems": [
    "C34_what_solve_changes",
    "C34_solve_keeps_numbers",
    "C34_left_over_local_state"
   ],
   "note": ""
  },
  {
   "property": "C35",
   "status": "proved",
   "theorems": [
    "C35_file_without_flow_raises",
    "C35_file_with_flow"
   ],
   "note": ""
  },
  {
   "property": "C36",
   "status": "proved",
   "theorems": [
    "C36_stability_derivatives",
    "C36_of_wings",
    "C36_default_flow"
   ],
   "note": ""
  },
  {
   "property": "C37",
   "status": "proved",
   "theorems": [
    "C37_damping_derivatives",
    "C37_of_wings",
    "C37_default_flow"
   ],
   "note": ""
  },
  {
   "property": "C38",
   "status": "proved",
   "theorems": [
    "C38_control_derivatives",
    "C38_of_wings",
    "C38_without_flow_raises",
    "C38_default_controls"
   ],
   "note": ""
  },
  {
   "property": "C39",
   "status": "proved",
   "theorems": [
    "C39_three_groups_in_turn",
    "C39_of_wings",
    "C39_flap_left_over",
    "C39_without_flow_raises",
    "C39_without_wings"
   ],
   "note": ""
  },
  {
   "property": "C40",
   "status": "proved",
   "theorems": [
    "C40_stability_leaves_perturbed_flow",
    "C40_damping_leaves_perturbed_flow",
    "C40_control_leaves_perturbed_controls",
    "C40_flow_without_density"
   ],
   "note": ""
  },
  {
   "property": "C41",
   "status": "proved",
   "theorems": [
    "C41_target_lift",
    "C41_affine_lift_is_solved_exactly",
    "C41_default_flow"
   ],
   "note": ""
  },
  {
   "property": "C42",
   "status": "proved",
   "theorems": [
    "C42_coinciding_starting_points"
   ],
   "note": ""
  },
  {
   "property": "C43",
   "status": "proved",
   "theorems": [
    "C43_pitch_trim",
    "C43_entry_values_do_not_matter",
    "C43_affine_trim_is_exact"
   ],
   "note": ""
  },
  {
   "property": "C44",
   "status": "proved",
   "theorems": [
    "C44_defaults_drop_arguments",
    "C44_no_file"
   ],
   "note": ""
  },
  {
   "property": "C45",
   "status": "proved",
   "theorems": [
    "C45_stall_onset",
    "C45_stall_check",
    "C45_does_not_return_without_stall",
    "C45_without_wings",
    "C45_default_flow"
   ],
   "note": ""
  },
  {
   "property": "C46",
   "status": "proved",
   "theorems": [
    "C46_stall_airspeed",
    "C46_without_flow_raises",
    "C46_without_wings"
   ],
   "note": ""
  },
  {
   "property": "C47",
   "status": "proved",
   "theorems": [
    "C47_aero_center",
    "C47_lift_regression",
    "C47_drag_regression",
    "C47_moment_regression",
    "C47_default_flow"
   ],
   "note": ""
  },
  {
   "property": "C48",
   "status": "proved",
   "theorems": [
    "C48_propeller_totals",
    "C48_every_propeller_solved"
   ],
   "note": ""
  },
  {
   "property": "C49",
   "status": "proved",
   "theorems": [
    "C49_setting_selection",
    "C49_foreign_entries",
    "C49_default_setting"
   ],
   "note": ""
  },
  {
   "property": "C50",
   "status": "proved",
   "theorems": [
    "C50_operating_point",
    "C50_refused_settings",
    "C50_solved_at_reported_rate",
    "C50_zero_J_refuted"
   ],
   "note": ""
  },
  {
   "property": "C51",
   "status": "proved",
   "theorems": [
    "C51_force_and_moment",
    "C51_opposite_rotation",
    "C51_rotation_values"
   ],
   "note": ""
  },
  {
   "property": "C52",
   "status": "proved",
   "theorems": [
    "C52_first_use_reads_uninitialised",
    "C52_nonzero_angles_assigned"
   ],
   "note": ""
  },
  {
   "property": "C53",
   "status": "proved",
   "theorems": [
    "C53_induced_angles",
    "C53_last_trials",
    "C53_equation_not_enforced_refuted"
   ],
   "note": ""
  },
  {
   "property": "C54",
   "status": "proved",
   "theorems": [
    "C54_aerodynamic_pitch"
   ],
   "note": ""
  },
  {
   "property": "C55",
   "status": "proved",
   "theorems": [
    "C55_outside_is_freestream",
    "C55_contributions_add",
    "C55_axial_velocity_bounds",
    "C55_development",
    "C55_contraction"
   ],
   "note": ""
  },
  {
   "property": "C56",
   "status": "proved",
   "theorems": [
    "C56_rotation_direction",
    "C56_documented_code_refuted"
   ],
   "note": ""
  },
  {
   "property": "C57",
   "status": "proved",
   "theorems": [
    "C57_mesh_complete",
    "C57_create_stl"
   ],
   "note": ""
  },
  {
   "property": "C58",
   "status": "proved",
   "theorems": [
    "C58_unit_quaternion",
    "C58_euler_rotation",
    "C58_rigid",
    "C58_composition"
   ],
   "note": ""
  },
  {
   "property": "C59",
   "status": "proved",
   "theorems": [
    "C59_outline",
    "C59_slope_ahead",
    "C59_slope_aft",
    "C59_true_slope_refuted"
   ],
   "note": ""
  },
  {
   "property": "C60",
   "status": "proved",
   "theorems": [
    "C60_digits_of_names",
    "C60_first_wing_name",
    "C60_first_blade_name"
   ],
   "note": ""
  },
  {
   "property": "C61",
   "status": "proved",
   "theorems": [
    "C61_section_loads"
   ],
   "note": ""
  },
  {
   "property": "C62",
   "status": "proved",
   "theorems": [
    "C62_drawing",
    "C62_can_be_drawn"
   ],
   "note": ""
  },
  {
   "property": "C63",
   "status": "proved",
   "theorems": [
    "C63_drawn_pitch",
    "C63_true_pitch_refuted"
   ],
   "note": ""
  },
  {
   "property": "C64",
   "status": "proved",
   "theorems": [
    "C64_trailing_edge_gap"
   ],
   "note": ""
  },
  {
   "property": "C65",
   "status": "proved",
   "theorems": [
    "C65_blade_sections"
   ],
   "note": ""
  },
  {
   "property": "C66",
   "status": "proved",
   "theorems": [
    "C66_thrust_and_torque",
    "C66_power_and_efficiency"
   ],
   "note": ""
  },
  {
   "property": "C67",
   "status": "proved",
   "theorems": [
    "C67_angles",
    "C67_velocity_triangles"
   ],
   "note": ""
  },
  {
   "property": "C68",
   "status": "proved",
   "theorems": [
    "C68_rate_from_power",
    "C68_rate_from_throttle"
   ],
   "note": ""
  },
  {
   "property": "C69",
   "status": "proved",
   "theorems": [
    "C69_slipstream_profile"
   ],
   "note": ""
  },
  {
   "property": "C70",
   "status": "proved",
   "theorems": [
    "C70_section_laws",
    "C70_proportional_lift",
    "C70_lift_at_stall",
    "C70_broadside_drag",
    "C70_symmetric_section_lift",
    "C70_symmetric_section_drag_differs"
   ],
   "note": ""
  },
  {
   "property": "C71",
   "status": "proved",
   "theorems": [
    "C71_wing_table",
    "C71_blade_table",
    "C71_like_solve",
    "C71_no_file",
    "C71_text_file",
    "C71_json_file_of_wings",
    "C71_json_file_with_propellers"
   ],
   "note": ""
  },
  {
   "property": "C72",
   "status": "proved",
   "theorems": [
    "C72_session",
    "C72_trim_depends_on_units_refuted"
   ],
   "note": ""
  },
  {
   "property": "C73",
   "status": "proved",
   "theorems": [
    "C73_controls_do_not_decide",
    "C73_circulation_superposes",
    "C73_central_differences_are_exact"
   ],
   "note": ""
  },
  {
   "property": "C74",
   "status": "proved",
   "theorems": [
    "C74_no_load"
   ],
   "note": ""
  },
  {
   "property": "C75",
   "status": "proved",
   "theorems": [
    "C75_place_does_not_matter"
   ],
   "note": ""
  },
  {
   "property": "C76",
   "status": "proved",
   "theorems": [
    "C76_mirrored_flight",
    "C76_mirrored_forces"
   ],
   "note": ""
  },
  {
   "property": "C77",
   "status": "proved",
   "theorems": [
    "C77_no_lateral_loads",
    "C77_derivatives_decouple"
   ],
   "note": ""
  },
  {
   "property": "C78",
   "status": "proved",
   "theorems": [
    "C78_any_order_of_entry",
    "C78_order_does_not_matter"
   ],
   "note": ""
  },
  {
   "property": "C79",
   "status": "proved",
   "theorems": [
    "C79_mirrored_propellers"
   ],
   "note": ""
  },
  {
   "property": "C80",
   "status": "proved",
   "theorems": [
    "C80_order_of_propellers"
   ],
   "note": ""
  },
  {
   "property": "C81",
   "status": "proved",
   "theorems": [
    "C81_twins_balance"
   ],
   "note": ""
  },
  {
   "property": "C82",
   "status": "proved",
   "theorems": [
    "C82_blade_planform",
    "C82_chord_unique",
    "C82_linear_ends"
   ],
   "note": ""
  },
  {
   "property": "C83",
   "status": "proved",
   "theorems": [
    "C83_propellers_remember_angles_and_rate",
    "C83_later_calls_agree",
    "C83_zero_rate_sticks_refuted"
   ],
   "note": ""
  },
  {
   "property": "C84",
   "status": "proved",
   "theorems": [
    "C84_edits_and_requests",
    "C84_other_edits_have_no_effect",
    "C84_cg_location_as_if_rebuilt",
    "C84_extended_too_late_refuted"
   ],
   "note": ""
  },
  {
   "property": "C85",
   "status": "proved",
   "theorems": [
    "C85_balance_after_any_flight",
    "C85_derivatives_with_twins"
   ],
   "note": ""
  },
  {
   "property": "C86",
   "status": "proved",
   "theorems": [
    "C86_speed_and_density",
    "C86_loads"
   ],
   "note": ""
  },
  {
   "property": "C87",
   "status": "proved",
   "theorems": [
    "C87_accepted_settings_never_raise",
    "C87_few_nodes_always_return"
   ],
   "note": ""
  }
 ]
}