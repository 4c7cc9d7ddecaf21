{
 "claims": [
  {
   "property": "C01",
   "status": "proved",
   "theorems": [
    "C01_constructor_accepts_iff",
    "C01_constructor_python_numbers",
    "C01_views_agree",
    "C01_every_obtainable_sequence_increasing",
    "C01_derived_constructions_total",
    "C01_nan_timestamps_refuted",
    "C01_inf_timestamps_refuted"
   ],
   "note": "Finite timestamps. For NaN/infinite floats the claim is false (refuted theorems)."
  },
  {
   "property": "C02",
   "status": "proved",
   "theorems": [
    "C02_at_exact_lookup"
   ],
   "note": ""
  },
  {
   "property": "C03",
   "status": "proved",
   "theorems": [
    "C03_at_or_previous_zero_order_hold"
   ],
   "note": ""
  },
  {
   "property": "C04",
   "status": "proved",
   "theorems": [
    "C04_at_interp_contract",
    "C04_at_interp_numbers"
   ],
   "note": ""
  },
  {
   "property": "C05",
   "status": "proved",
   "theorems": [
    "C05_subsequence_is_closed_window",
    "C05_subsequence_membership"
   ],
   "note": ""
  },
  {
   "property": "C06",
   "status": "proved",
   "theorems": [
    "C06_shift_is_time_translation",
    "C06_shift_back_is_identity"
   ],
   "note": ""
  },
  {
   "property": "C07",
   "status": "proved",
   "theorems": [
    "C07_transform_keeps_defined_images",
    "C07_transform_total_function"
   ],
   "note": ""
  },
  {
   "property": "C08",
   "status": "proved",
   "theorems": [
    "C08_builder_refines_list"
   ],
   "note": ""
  },
  {
   "property": "C09",
   "status": "proved",
   "theorems": [
    "C09_iterate_adjacent_pairs",
    "C09_untyped_sequence_refuted"
   ],
   "note": "For sequences created through a subscripted class; without a type argument iteration raises AttributeError (refuted theorem)."
  },
  {
   "property": "C10",
   "status": "proved",
   "theorems": [
    "C10_accumulate_running_sum",
    "C10_integrate_running_area",
    "C10_integrate_short",
    "C10_integrate_additive",
    "C10_integrate_constant"
   ],
   "note": ""
  },
  {
   "property": "C11",
   "status": "proved",
   "theorems": [
    "C11_differentiate_slopes",
    "C11_differentiate_telescopes",
    "C11_differentiate_line"
   ],
   "note": ""
  },
  {
   "property": "C12",
   "status": "proved",
   "theorems": [
    "C12_crossings_sound",
    "C12_crossings_complete"
   ],
   "note": ""
  },
  {
   "property": "C13",
   "status": "proved",
   "theorems": [
    "C13_yields_exactly_the_choices",
    "C13_each_choice_once",
    "C13_count"
   ],
   "note": ""
  },
  {
   "property": "C14",
   "status": "partial",
   "theorems": [
    "C14_merge_accepts",
    "C14_merge_result",
    "C14_merge_keeps_everything",
    "C14_merge_keeps_everything_refuted",
    "C14_merge_associative",
    "C14_merge_unsafe"
   ],
   "note": "Acceptance, result and associativity proved. The last clause (no non-duplicate sample of b is lost) is false: refuted theorem."
  },
  {
   "property": "C15",
   "status": "proved",
   "theorems": [
    "C15_upsample_refines",
    "C15_upsample_span",
    "C15_upsample_0"
   ],
   "note": "Non-empty trajectories, n a natural number; rounding is not modelled."
  },
  {
   "property": "C16",
   "status": "partial",
   "theorems": [
    "C16_commands_plan_refuted",
    "C16_commands_plan_partial"
   ],
   "note": "False of the code for every trajectory with two or more samples (TypeError): refuted theorem; proved for shorter ones."
  },
  {
   "property": "C17",
   "status": "partial",
   "theorems": [
    "C17_add_edge_effect",
    "C17_always_acyclic",
    "C17_get_trajectory",
    "C17_get_transition",
    "C17_all_trajectories",
    "C17_all_transitions",
    "C17_needs_one_root",
    "C17_commands_on_trajectory",
    "C17_every_path_refuted",
    "C17_generation_kept_refuted",
    "C17_commands_follow_trajectory_refuted"
   ],
   "note": "add_edge effect, acyclicity, enumeration per leaf, transitions and commands along shortest paths proved for any path search meeting the networkx contract. Three clauses are false of the code (refuted theorems)."
  },
  {
   "property": "C18",
   "status": "proved",
   "theorems": [
    "C18_primitives_are_the_feasible_drives",
    "C18_primitive_samples",
    "C18_generate_total",
    "C18_bicycle_primitives_reach_their_target",
    "C18_grid_inside_range"
   ],
   "note": "For every caller-supplied dynamics, dt>0 and n_steps>=1; the returned set is modelled as the list of added trajectories."
  },
  {
   "property": "C19",
   "status": "partial",
   "theorems": [
    "C19_sampler_ranges_inside_limits",
    "C19_one_trajectory_per_grid_pair",
    "C19_generate_total",
    "C19_from_vehicle_parameters",
    "C19_from_vehicle_refuted"
   ],
   "note": "Grid and limits proved; the last clause (building from any vehicle's parameters succeeds) is false: refuted theorem for the default car, truck and bicycle."
  },
  {
   "property": "C20",
   "status": "proved",
   "theorems": [
    "C20_time_is_the_dt_grid",
    "C20_each_tick_logged_once"
   ],
   "note": ""
  },
  {
   "property": "C21",
   "status": "proved",
   "theorems": [
    "C21_run_ends",
    "C21_run_always_ends",
    "C21_no_iteration_past_the_limit"
   ],
   "note": ""
  },
  {
   "property": "C22",
   "status": "proved",
   "theorems": [
    "C22_computation_times_logged",
    "C22_asked_exactly_when_due",
    "C22_first_request_at_start",
    "C22_requests_spaced",
    "C22_players_asked_together",
    "C22_model_stepped_each_iteration",
    "C22_command_held",
    "C22_command_log_is_requests"
   ],
   "note": ""
  },
  {
   "property": "C23",
   "status": "proved",
   "theorems": [
    "C23_leaves_iff_goal_fulfilled",
    "C23_gone_for_good",
    "C23_no_mission_never_leaves"
   ],
   "note": ""
  },
  {
   "property": "C24",
   "status": "proved",
   "theorems": [
    "C24_only_user_code_raises",
    "C24_every_player_gets_its_log"
   ],
   "note": ""
  },
  {
   "property": "C25",
   "status": "proved",
   "theorems": [
    "C25_observations_are_snapshots",
    "C25_same_view_for_all",
    "C25_delivered_observations_are_final"
   ],
   "note": "Observation contents, equality across players and finality. Independence of agents' internal effects on each other is by the value semantics of the model (get_state is a deep copy)."
  },
  {
   "property": "C26",
   "status": "proved",
   "theorems": [
    "C26_stops_only_for_a_reason",
    "C26_over_iff_reason"
   ],
   "note": ""
  },
  {
   "property": "C27",
   "status": "proved",
   "theorems": [
    "C27_every_touching_pair_once",
    "C27_reports_are_the_calls",
    "C27_reports_in_time_order"
   ],
   "note": ""
  },
  {
   "property": "C28",
   "status": "proved",
   "theorems": [
    "C28_every_environment_candidate",
    "C28_only_active_players",
    "C28_moving_obstacles_not_reported"
   ],
   "note": ""
  },
  {
   "property": "C29",
   "status": "partial",
   "theorems": [
    "C29_new_simulators_are_independent",
    "C29_reuse_refuted",
    "C29_reuse_silent_refuted"
   ],
   "note": "False of the code for a reused object (two refuted theorems); proved for distinct Simulator objects sharing class attributes."
  },
  {
   "property": "C30",
   "status": "proved",
   "theorems": [
    "C30_init_time_is_least",
    "C30_last_time_is_greatest",
    "C30_at_interp_contract",
    "C30_at_interp_defined",
    "C30_undefined_before_first_command"
   ],
   "note": ""
  },
  {
   "property": "C31",
   "status": "proved",
   "theorems": [
    "C31_only_removes",
    "C31_shows_exactly_the_visible",
    "C31_visible_after_repair",
    "C31_observer_must_be_present",
    "C31_scenario_change_refuted"
   ],
   "note": "With the obstacles of the scenario the filter was first used with. If the observed scenario object changes later the filter keeps the old obstacles (refuted theorem)."
  },
  {
   "property": "C32",
   "status": "proved",
   "theorems": [
    "C32_data_age",
    "C32_exact",
    "C32_always_answers",
    "C32_negative_latency_fails",
    "C32_history",
    "C32_outputs_in_recording_order",
    "C32_regular_sampling",
    "C32_stacked_delays_add"
   ],
   "note": ""
  },
  {
   "property": "C33",
   "status": "partial",
   "theorems": [
    "C33_ghost_exactly",
    "C33_zero_always_ghosted_refuted",
    "C33_zero_ghosted_partial"
   ],
   "note": "Exact characterisation proved for every threshold. The threshold-0 clause is false at distance 0 (refuted) and proved otherwise (_partial)."
  },
  {
   "property": "C34",
   "status": "partial",
   "theorems": [
    "C34_plan_is_played",
    "C34_policy_applied_to_state_refuted",
    "C34_policy_partial"
   ],
   "note": "Open-loop clause proved. PolicyAgent hands the whole observation entry, not the state, to the policy: refuted theorem, and _partial theorem for what it does."
  },
  {
   "property": "C35",
   "status": "proved",
   "theorems": [
    "C35_emergency_latches",
    "C35_no_emergency_tracks_behaviour",
    "C35_commands_in_limits"
   ],
   "note": ""
  },
  {
   "property": "C36",
   "status": "partial",
   "theorems": [
    "C36_params_checked",
    "C36_limits",
    "C36_reference_saturated",
    "C36_control_law",
    "C36_same_time_no_derivative",
    "C36_proportional_only_partial",
    "C36_proportional_only_refuted"
   ],
   "note": "All limits, the control law and the equal-time clause proved for every history. The proportional-only clause needs antiwindup limits that contain 0, which the constructor does not require: refuted and _partial."
  },
  {
   "property": "C37",
   "status": "proved",
   "theorems": [
    "C37_reference",
    "C37_bounds",
    "C37_more_agents_never_faster",
    "C37_order_irrelevant",
    "C37_needs_observations"
   ],
   "note": ""
  },
  {
   "property": "C38",
   "status": "partial",
   "theorems": [
    "C38_lookahead",
    "C38_unchecked_limits_refuted",
    "C38_needs_pose_and_path",
    "C38_steering_law",
    "C38_steering_sign",
    "C38_straight_ahead_refuted",
    "C38_straight_ahead_partial",
    "C38_defined",
    "C38_goal_point"
   ],
   "note": "Lookahead bounds (checked limits), steering law and sign, error without pose or path proved. Unchecked limits break the bounds, and a goal point straight ahead yields a small non-zero steering because of the 1e-9 offset: refuted theorems; its size is bounded in the _partial theorem."
  },
  {
   "property": "C39",
   "status": "proved",
   "theorems": [
    "C39_steering_rate_in_limits",
    "C39_speed_command_in_limits",
    "C39_controllers_exist"
   ],
   "note": ""
  },
  {
   "property": "C40",
   "status": "proved",
   "theorems": [
    "C40_restitution",
    "C40_restitution_environment",
    "C40_light_obstacle_refuted"
   ],
   "note": "For two bodies of finite mass and for an infinitely heavy obstacle. For an obstacle of finite mass, which the constructor accepts, the law fails (refuted theorem). shapely's geometry and the models are universally quantified."
  },
  {
   "property": "C41",
   "status": "proved",
   "theorems": [
    "C41_momentum"
   ],
   "note": ""
  },
  {
   "property": "C42",
   "status": "partial",
   "theorems": [
    "C42_energy",
    "C42_energy_environment",
    "C42_reported_energy_refuted"
   ],
   "note": "True kinetic energy proved never to grow. The reported energy differences ignore rotation and can have a positive sum (refuted theorem)."
  },
  {
   "property": "C43",
   "status": "proved",
   "theorems": [
    "C43_separating",
    "C43_separating_environment",
    "C43_resolved",
    "C43_resolved_environment",
    "C43_exception_after_flagging"
   ],
   "note": "Models are any objects whose collision flag does not affect geometry; that set_velocity sets what get_velocity returns is C55. If impact locations cannot be found the models stay flagged (C43_exception_after_flagging)."
  },
  {
   "property": "C44",
   "status": "partial",
   "theorems": [
    "C44_normal",
    "C44_defined",
    "C44_concentric_refuted",
    "C44_crossings"
   ],
   "note": "Unit, orientation, chord proved whenever a normal exists; existence proved for distinct crossing points; concentric bodies give nan (refuted theorem)."
  },
  {
   "property": "C45",
   "status": "partial",
   "theorems": [
    "C45_fault",
    "C45_no_lane_refuted"
   ],
   "note": "Exact characterisation proved; where the map has no lane both players are declared at fault (refuted theorem)."
  },
  {
   "property": "C46",
   "status": "proved",
   "theorems": [
    "C46_combine",
    "C46_commutative",
    "C46_different_players",
    "C46_associative",
    "C46_unordered_associative_refuted",
    "C46_accident",
    "C46_empty_not_neutral_refuted"
   ],
   "note": "For time-ordered reports with data on every player. Out of time order associativity fails, and get_empty is not neutral (refuted theorems)."
  },
  {
   "property": "C47",
   "status": "proved",
   "theorems": [
    "C47_defined",
    "C47_position_parameter_position",
    "C47_parameter_position_parameter",
    "C47_monotone_position",
    "C47_monotone_parameter",
    "C47_end_points"
   ],
   "note": ""
  },
  {
   "property": "C48",
   "status": "partial",
   "theorems": [
    "C48_lengths",
    "C48_detour",
    "C48_cache",
    "C48_stale_cache_refuted"
   ],
   "note": "Lengths, sum, detour and transparency of the cache for unchanged lanes are proved; false after the control points of a queried lane are edited (refuted theorem)."
  },
  {
   "property": "C49",
   "status": "partial",
   "theorems": [
    "C49_classification",
    "C49_end_of_lane_refuted",
    "C49_along_partial",
    "C49_of_pose"
   ],
   "note": "Away from the end of a lane every flag is right; at the lane parameter of the end none of them is set (refuted theorem)."
  },
  {
   "property": "C50",
   "status": "proved",
   "theorems": [
    "C50_centre_line",
    "C50_control_points",
    "C50_radius",
    "C50_fast_on_segment"
   ],
   "note": ""
  },
  {
   "property": "C51",
   "status": "partial",
   "theorems": [
    "C51_within_partial",
    "C51_within_or_zero",
    "C51_within_refuted",
    "C51_speed_limits",
    "C51_identity",
    "C51_recover"
   ],
   "note": "Clipping is proved; what is clipped may be zeroed afterwards, and zero may be outside the acceleration limits (refuted theorem)."
  },
  {
   "property": "C52",
   "status": "proved",
   "theorems": [
    "C52_steering",
    "C52_steering_nearest",
    "C52_rotation",
    "C52_nozzle",
    "C52_rotational_speed",
    "C52_force"
   ],
   "note": ""
  },
  {
   "property": "C53",
   "status": "partial",
   "theorems": [
    "C53_round_trip",
    "C53_array_round_trip",
    "C53_vehicle_commands_partial",
    "C53_lights_refuted",
    "C53_spacecraft_refuted",
    "C53_construct",
    "C53_wrong_length",
    "C53_layout"
   ],
   "note": "Round trips of numbers are proved; lights are lost on the way and spacecraft commands raise a KeyError (refuted theorems)."
  },
  {
   "property": "C54",
   "status": "partial",
   "theorems": [
    "C54_extensional",
    "C54_add",
    "C54_scale",
    "C54_sub",
    "C54_div",
    "C54_other_type",
    "C54_comm",
    "C54_assoc",
    "C54_zero",
    "C54_distr",
    "C54_scalar_left",
    "C54_scalar_left_refuted",
    "C54_scalar_left_dyn_partial",
    "C54_to_vehicle_state"
   ],
   "note": "The vector space laws are proved for the other classes; multiplication from the left of a dynamic vehicle state is wrong in vy and dpsi (refuted theorem)."
  },
  {
   "property": "C55",
   "status": "partial",
   "theorems": [
    "C55_set_get",
    "C55_vehicle_partial",
    "C55_vehicle_refuted",
    "C55_vehicle_dyn_partial",
    "C55_vehicle_dyn_refuted",
    "C55_pedestrian_refuted",
    "C55_diff_drive_refuted",
    "C55_pose_kept"
   ],
   "note": "Proved for full states; vehicles keep only the forward speed, dynamic vehicles ignore the rotation, pedestrians take it for the forward speed, differential drive robots report zero (refuted theorems)."
  },
  {
   "property": "C56",
   "status": "partial",
   "theorems": [
    "C56_deaf_partial",
    "C56_car_refuted",
    "C56_obstacle_refuted"
   ],
   "note": "Proved for the other models; cars and obstacles still obey commands after a collision (refuted theorems)."
  },
  {
   "property": "C57",
   "status": "proved",
   "theorems": [
    "C57_limits",
    "C57_change"
   ],
   "note": ""
  },
  {
   "property": "C58",
   "status": "partial",
   "theorems": [
    "C58_thrust",
    "C58_spaceship_thrust",
    "C58_rocket",
    "C58_spaceship_partial",
    "C58_spaceship_refuted"
   ],
   "note": "Proved for limits with non-negative thrust; the default spaceship may have negative thrust and gain mass (refuted theorem)."
  },
  {
   "property": "C59",
   "status": "partial",
   "theorems": [
    "C59_bounded",
    "C59_zero",
    "C59_odd",
    "C59_peak",
    "C59_default_4p_refuted"
   ],
   "note": "Proved for both tyre models; the default four-parameter tyres are built with three parameters (refuted theorem)."
  },
  {
   "property": "C60",
   "status": "proved",
   "theorems": [
    "C60_pose_round_trip",
    "C60_pose_of_state",
    "C60_matrix_round_trip",
    "C60_relative_pose",
    "C60_apply_is_rigid",
    "C60_point_lists",
    "C60_empty_point_list_refuted",
    "C60_interpolate",
    "C60_position_distance"
   ],
   "note": "All clauses proved over the reals. Beyond the statement: applying a pose to an empty list of points fails (refuted theorem)."
  },
  {
   "property": "C61",
   "status": "proved",
   "theorems": [
    "C61_polygon",
    "C61_line",
    "C61_dispatch"
   ],
   "note": ""
  },
  {
   "property": "C62",
   "status": "proved",
   "theorems": [
    "C62_max_jerk",
    "C62_no_interval"
   ],
   "note": ""
  },
  {
   "property": "C63",
   "status": "proved",
   "theorems": [
    "C63_distance",
    "C63_displacement",
    "C63_rest",
    "C63_split"
   ],
   "note": ""
  },
  {
   "property": "C64",
   "status": "partial",
   "theorems": [
    "C64_alongside_goal_lane",
    "C64_next_lane",
    "C64_ends",
    "C64_positive_answer",
    "C64_returns_soon_or_never",
    "C64_returns_partial",
    "C64_returns_refuted",
    "C64_predecessor_refuted",
    "C64_first_time"
   ],
   "note": "The search for the lane need not return (refuted theorem); it returns within as many rounds as there are lanes or never, and always if the network has no loops and no gaps (partial theorem). The first-time clause is proved."
  },
  {
   "property": "C65",
   "status": "proved",
   "theorems": [
    "C65_first_prediction",
    "C65_tunnelling_refuted"
   ],
   "note": "Proved as stated, with the IEEE sum of the time steps (3.0000000000000013 s for the last one). Beyond the statement: contact between two steps is missed (refuted theorem for the reading without steps)."
  },
  {
   "property": "C66",
   "status": "partial",
   "theorems": [
    "C66_minimum",
    "C66_minimum_at_time",
    "C66_defined",
    "C66_player_without_goal_refuted"
   ],
   "note": "Proved when every logged player has a goal; otherwise KeyError (refuted theorem)."
  },
  {
   "property": "C67",
   "status": "proved",
   "theorems": [
    "C67_constructor",
    "C67_zero_range_refuted",
    "C67_in_range",
    "C67_nearest_hit",
    "C67_rays",
    "C67_spacing",
    "C67_narrow_refuted",
    "C67_negative_fov_refuted",
    "C67_between_rays_refuted",
    "C67_full_range"
   ],
   "note": "Proved as stated for every right ray tracer. Beyond the statement: range 0 passes the checks and then fails (C67_zero_range_refuted), fields of view under the angular resolution or negative give no polygon (C67_narrow_refuted, C67_negative_fov_refuted), obstacles between two rays are not seen (C67_between_rays_refuted)."
  },
  {
   "property": "C68",
   "status": "partial",
   "theorems": [
    "C68_players",
    "C68_agents",
    "C68_statics",
    "C68_static_pose_refuted",
    "C68_pedestrian_refuted",
    "C68_succeeds_partial",
    "C68_missions_refuted",
    "C68_ego_refuted",
    "C68_loop_refuted"
   ],
   "note": "Classification, names, poses and static obstacles proved for every import that succeeds; sufficient conditions for success. C68_static_pose_refuted: static obstacles of the scenario are not moved to their pose (factory.py:69-75). C68_pedestrian_refuted: any walking pedestrian makes the import fail. C68_loop_refuted, C68_ego_refuted, C68_missions_refuted."
  },
  {
   "property": "C69",
   "status": "partial",
   "theorems": [
    "C69_star",
    "C69_random_partial",
    "C69_no_vertices",
    "C69_small_refuted",
    "C69_far_refuted",
    "C69_irregular_refuted"
   ],
   "note": "The vertices are truncated to whole numbers, so only C69_random_partial holds (up to 1 per coordinate); refuted: a polygon of average radius under 1/2 is a point, vertices beyond twice the radius, all vertices equal with irregularity 1."
  },
  {
   "property": "C70",
   "status": "partial",
   "theorems": [
    "C70_shown",
    "C70_history",
    "C70_partial",
    "C70_refuted",
    "C70_front",
    "C70_others"
   ],
   "note": "C70_history gives the exact colours after any history; C70_refuted: a vehicle that does not brake shows brighter rear lights once any vehicle has braked, because the shared table is changed in place (simulator_animation.py:236-240)."
  },
  {
   "property": "C71",
   "status": "partial",
   "theorems": [
    "C71_timing_is_transparent",
    "C71_timing_only_adds_a_log_line",
    "C71_callable_object_refuted"
   ],
   "note": "Proved for functions; false for callables without __qualname__ (refuted theorem)."
  },
  {
   "property": "C72",
   "status": "proved",
   "theorems": [
    "C72_mapping_helpers",
    "C72_fs_is_the_set"
   ],
   "note": ""
  },
  {
   "property": "C73",
   "status": "partial",
   "theorems": [
    "C73_same_inputs_same_commands_refuted",
    "C73_same_inputs_same_commands_partial"
   ],
   "note": "False for the lights (refuted); proved for acceleration and steering rate (_partial)."
  },
  {
   "property": "C74",
   "status": "partial",
   "theorems": [
    "C74_given_behaviour_used_partial",
    "C74_given_pursuit_used_refuted"
   ],
   "note": "Proved for speed_behavior (_partial); the pure_pursuit argument is ignored (refuted)."
  },
  {
   "property": "C75",
   "status": "partial",
   "theorems": [
    "C75_pose_distance_partial",
    "C75_zero_means_same_pose_refuted",
    "C75_triangle_inequality_refuted"
   ],
   "note": "Symmetry, non-negativity and frame independence proved (_partial). Zero-iff-equal and the triangle inequality are false of the code (refuted theorems)."
  },
  {
   "property": "C76",
   "status": "partial",
   "theorems": [
    "C76_inside_partial",
    "C76_outside_refuted"
   ],
   "note": "Proved on the lane; outside it one unit of lane parameter is 0.1 m (refuted theorem)."
  },
  {
   "property": "C77",
   "status": "partial",
   "theorems": [
    "C77_fast_heading_partial",
    "C77_fast_heading_refuted"
   ],
   "note": "Proved where no wrap-around lies between the two centre points; across it the fast heading is the plain difference of angles (refuted theorem)."
  },
  {
   "property": "C78",
   "status": "proved",
   "theorems": [
    "C78_borders",
    "C78_lengths"
   ],
   "note": ""
  },
  {
   "property": "C79",
   "status": "partial",
   "theorems": [
    "C79_inside_sound",
    "C79_tests_disagree_refuted"
   ],
   "note": "Soundness proved for every minimiser; agreement with the lane pose is false at the end of the lane (refuted theorem)."
  },
  {
   "property": "C80",
   "status": "proved",
   "theorems": [
    "C80_outline",
    "C80_short_outlines"
   ],
   "note": ""
  },
  {
   "property": "C81",
   "status": "partial",
   "theorems": [
    "C81_vehicle",
    "C81_pedestrian",
    "C81_obstacle",
    "C81_spacecraft_rotation",
    "C81_rocket_nozzle",
    "C81_spaceship_nozzle",
    "C81_spacecraft_speed_refuted",
    "C81_vehicle_dyn_refuted"
   ],
   "note": "Proved for the other models and any differentiable solution; spacecraft ignore speed limits and dynamic vehicles exceed them (refuted theorems)."
  },
  {
   "property": "C82",
   "status": "partial",
   "theorems": [
    "C82_vehicle",
    "C82_vehicle_dyn_partial",
    "C82_vehicle_dyn_refuted",
    "C82_spacecraft",
    "C82_obstacle",
    "C82_spaceship",
    "C82_pedestrian_partial",
    "C82_pedestrian_refuted",
    "C82_rocket_partial",
    "C82_rocket_refuted",
    "C82_diff_drive_rolls",
    "C82_diff_drive_refuted"
   ],
   "note": "Proved for the other models; dynamic vehicles below 0.1 m/s, rotating pedestrians, rockets' frame and differential drives differ from the kinematics (refuted theorems)."
  },
  {
   "property": "C83",
   "status": "proved",
   "theorems": [
    "C83_normal_forces",
    "C83_friction_circle",
    "C83_defined",
    "C83_split"
   ],
   "note": ""
  },
  {
   "property": "C85",
   "status": "partial",
   "theorems": [
    "C85_window",
    "C85_defined",
    "C85_homogeneous",
    "C85_oscillation",
    "C85_constant_even",
    "C85_constant_odd_refuted",
    "C85_timestamps_ignored_refuted",
    "C85_weight_range"
   ],
   "note": "True for an even number of samples taken every 0.1 s. For an odd number a constant gives a result too large by n/(n-1), and the timestamps are ignored (refuted theorems)."
  },
  {
   "property": "C87",
   "status": "proved",
   "theorems": [
    "C87_has_collision",
    "C87_min_ttc_max_drac",
    "C87_drac_value",
    "C87_missed_contact_refuted"
   ],
   "note": "Proved as stated. Beyond the statement: agents whose centres move apart are skipped although their footprints are about to meet (refuted theorem)."
  },
  {
   "property": "C86",
   "status": "partial",
   "theorems": [
    "C86_pose_goal",
    "C86_pose_goal_tolerance",
    "C86_position_only",
    "C86_no_pose",
    "C86_lane_end",
    "C86_lane_end_refuted",
    "C86_not_before",
    "C86_ref_lane_partial",
    "C86_ref_lane_refuted",
    "C86_static",
    "C86_plot_refuted",
    "C86_plot_partial"
   ],
   "note": "C86_ref_lane_refuted: with control points more than a metre apart no position on the lane fulfils a lane goal more than n + 10 metres along (goals.py:61). C86_lane_end_refuted: inflation radii under 0.1 m exclude the end of the lane. C86_plot_refuted: PoseGoal.get_plottable_geometry raises TypeError."
  },
  {
   "property": "C84",
   "status": "partial",
   "theorems": [
    "C84_outline",
    "C84_lights",
    "C84_unknown_type",
    "C84_width_refuted",
    "C84_wheels_partial",
    "C84_steered_wheels_refuted",
    "C84_short_front_refuted",
    "C84_robot_wheels_refuted",
    "C84_wheel_places",
    "C84_robot_wheels",
    "C84_steering",
    "C84_footprint",
    "C84_vehicle_mesh",
    "C84_mesh_covers",
    "C84_robot_mesh_refuted"
   ],
   "note": "wheels are inside only unsteered and with a long enough front; the mesh of the differential drive robot covers only part of one quarter of it (refuted)"
  },
  {
   "property": "C88",
   "status": "partial",
   "theorems": [
    "C88_lane",
    "C88_complete",
    "C88_defined",
    "C88_position",
    "C88_wrong_lane_refuted",
    "C88_angle_refuted"
   ],
   "note": "C88_wrong_lane_refuted: ids are compared as substrings of decimal strings (utils_dyn_obstacle.py:29). C88_angle_refuted: orientations are subtracted without wrapping (utils_dyn_obstacle.py:42)."
  },
  {
   "property": "C89",
   "status": "partial",
   "theorems": [
    "C89_state",
    "C89_body",
    "C89_size_refuted",
    "C89_steering_refuted"
   ],
   "note": "C89_size_refuted: cars come out 0.875 L + 0.6 long and 0.95 W + 0.2 wide. C89_steering_refuted: an orientation that wraps gives a steering angle beyond 2 rad."
  },
  {
   "property": "C90",
   "status": "proved",
   "theorems": [
    "C90_found",
    "C90_complete",
    "C90_last",
    "C90_ending",
    "C90_path_refuted"
   ],
   "note": "C90_path_refuted: a name with a directory part is never found, since names of files are compared."
  },
  {
   "property": "C91",
   "status": "proved",
   "theorems": [
    "C91_obstacles",
    "C91_negative"
   ],
   "note": ""
  },
  {
   "property": "C92",
   "status": "partial",
   "theorems": [
    "C92_auto",
    "C92_auto_empty",
    "C92_follow",
    "C92_follow_fails",
    "C92_fallback_refuted",
    "C92_fixed"
   ],
   "note": "C92_fallback_refuted: the documented empty name fails with KeyError and the fallback to automatic scaling is never reached (simulator_animation.py:181-220)."
  },
  {
   "property": "C93",
   "status": "partial",
   "theorems": [
    "C93_frames",
    "C93_last_instant_refuted",
    "C93_late_start_refuted",
    "C93_refused",
    "C93_run",
    "C93_speed",
    "C93_real_time_refuted",
    "C93_file"
   ],
   "note": "C93_last_instant_refuted: the last interval is never shown. C93_late_start_refuted: frame times start at 0 instead of the beginning of the log. C93_real_time_refuted: the frame rate is rounded up."
  },
  {
   "property": "C94",
   "status": "proved",
   "theorems": [
    "C94_who_collided",
    "C94_with_the_ego_refuted",
    "C94_run"
   ],
   "note": "Proved as stated. Beyond the statement: the docstring restricts the set to players that collided with the ego; all pairs are included (C94_with_the_ego_refuted)."
  },
  {
   "property": "C95",
   "status": "partial",
   "theorems": [
    "C95_vehicle",
    "C95_pedestrian",
    "C95_obstacle",
    "C95_diff_drive",
    "C95_spacecraft",
    "C95_rocket",
    "C95_spaceship",
    "C95_refused",
    "C95_later_refuted"
   ],
   "note": "C95_later_refuted: wheels and lights that are first asked for in a later frame are not drawn or fail with TypeError."
  },
  {
   "property": "C96",
   "status": "partial",
   "theorems": [
    "C96_rocket",
    "C96_requested_length_refuted",
    "C96_spaceship",
    "C96_spacecraft",
    "C96_pedestrian",
    "C96_thrusters_refuted",
    "C96_rocket_thrust",
    "C96_rocket_torque_refuted",
    "C96_spaceship_thrust",
    "C96_flames",
    "C96_flames_refuted"
   ],
   "note": "C96_requested_length_refuted: RocketGeometry.default ignores the length it is given. C96_thrusters_refuted: the thrusters of a spacecraft are outside its footprint. C96_rocket_torque_refuted: the torque ignores the lateral offset of the nozzles. C96_flames_refuted: flames follow the command, not the limited thrust that acts."
  },
  {
   "property": "C97",
   "status": "partial",
   "theorems": [
    "C97_polygon",
    "C97_holes_refuted",
    "C97_parts_refuted",
    "C97_others",
    "C97_documented_refuted"
   ],
   "note": "C97_holes_refuted: with a zorder above 1 (always so in the arena) holes are painted over. C97_parts_refuted: the parts of a MultiPolygon after the first are painted in the background colour. C97_documented_refuted: MultiPoint, MultiLineString and GeometryCollection, documented as supported, are TypeErrors with shapely 2."
  },
  {
   "property": "C98",
   "status": "partial",
   "theorems": [
    "C98_arena",
    "C98_obstacles_over_goals",
    "C98_pose_goal_refuted",
    "C98_moving_goal",
    "C98_static_goal",
    "C98_trajectories_partial",
    "C98_late_refuted",
    "C98_stale_refuted"
   ],
   "note": "C98_pose_goal_refuted: a player with a PoseGoal makes the drawing fail. C98_late_refuted: trajectories first reported after the first frame are never drawn. C98_stale_refuted: trajectories that are not reported any more stay in the picture."
  },
  {
   "property": "C99",
   "status": "partial",
   "theorems": [
    "C99_player",
    "C99_players",
    "C99_default_figure",
    "C99_other_figure_refuted",
    "C99_empty"
   ],
   "note": "C99_other_figure_refuted: with a figure that is not pyplot's current one the curves are drawn elsewhere. C99_empty: a log without states or commands is an IndexError."
  },
  {
   "property": "C100",
   "status": "partial",
   "theorems": [
    "C100_gates",
    "C100_bounds_partial",
    "C100_lanes_clear",
    "C100_ends_open_partial",
    "C100_holes_refuted",
    "C100_closed_refuted",
    "C100_zero_buffer_refuted",
    "C100_defined_partial",
    "C100_scenario"
   ],
   "note": "C100_holes_refuted: the border of a hole of the road is blocked also at open ends. C100_closed_refuted: a road without open ends is an AttributeError (a single LinearRing has no .geoms). C100_zero_buffer_refuted: so is buffer 0, which DgScenario allows. C100_bounds_partial and C100_ends_open_partial: up to the borders of the holes. C100_defined_partial: assumes that the gates cut every part into several pieces."
  },
  {
   "property": "C101",
   "status": "partial",
   "theorems": [
    "C101_run",
    "C101_picture",
    "C101_defined",
    "C101_unresolved_refuted",
    "C101_turn_refuted",
    "C101_resolved",
    "C101_resolved_environment"
   ],
   "note": "C101_unresolved_refuted: reports of collisions that could not be resolved (get_empty) fail with AttributeError. C101_turn_refuted: the arrow of the rotation is the same for both senses of rotation."
  },
  {
   "property": "C102",
   "status": "partial",
   "theorems": [
    "C102_direction",
    "C102_relative",
    "C102_range",
    "C102_normalised_refuted"
   ],
   "note": "C102_normalised_refuted: the angle is not wrapped to (-pi, pi]."
  },
  {
   "property": "C103",
   "status": "proved",
   "theorems": [
    "C103_moved",
    "C103_path",
    "C103_moved_twice",
    "C103_between",
    "C103_heading_between_refuted",
    "C103_result_class_refuted"
   ],
   "note": "Beyond the statement: C103_heading_between_refuted: headings between samples do not move along, because wrapped headings are averaged. C103_result_class_refuted: the result is a DgSampledSequence, so as_path and moving again are AttributeErrors."
  },
  {
   "property": "C104",
   "status": "proved",
   "theorems": [
    "C104_vehicle",
    "C104_vehicle_dyn",
    "C104_pedestrian",
    "C104_diff_drive",
    "C104_spacecraft",
    "C104_obstacle",
    "C104_rocket",
    "C104_spaceship",
    "C104_planner",
    "C104_moved_start"
   ],
   "note": ""
  },
  {
   "property": "C105",
   "status": "proved",
   "theorems": [
    "C105_vehicle",
    "C105_planner",
    "C105_vehicle_dyn",
    "C105_pedestrian",
    "C105_diff_drive",
    "C105_spacecraft",
    "C105_obstacle",
    "C105_rocket",
    "C105_spaceship",
    "C105_obstacle_refuted"
   ],
   "note": "Beyond the statement: C105_obstacle_refuted: the limits of the forward speed of dynamic obstacles also bound the lateral speed, so with different limits forwards and backwards left and right differ."
  },
  {
   "property": "C106",
   "status": "proved",
   "theorems": [
    "C106_same_steps",
    "C106_rk45",
    "C106_same_motion",
    "C106_one_step",
    "C106_integrated",
    "C106_limits_refuted"
   ],
   "note": "Beyond the statement: C106_limits_refuted: the integrated prediction does not respect the limits of speed and steering."
  },
  {
   "property": "C107",
   "status": "partial",
   "theorems": [
    "C107_silent",
    "C107_line",
    "C107_line_of_sight",
    "C107_rear_axle_refuted",
    "C107_before_commands_refuted",
    "C107_given_controller_refuted"
   ],
   "note": "C107_rear_axle_refuted: the line starts at the rear axle only if the centre of mass is halfway between the axles (C107_line_of_sight proves that case). C107_before_commands_refuted: TypeError before the first commands. C107_given_controller_refuted: the controller given to the constructor is ignored."
  },
  {
   "property": "C108",
   "status": "proved",
   "theorems": [
    "C108_states_log",
    "C108_entries_stay"
   ],
   "note": ""
  },
  {
   "property": "C109",
   "status": "proved",
   "theorems": [
    "C109_states_move_by_commands",
    "C109_start_states_untouched"
   ],
   "note": ""
  },
  {
   "property": "C110",
   "status": "partial",
   "theorems": [
    "C110_shown_states",
    "C110_same_objects_refuted",
    "C110_commands_log_refuted"
   ],
   "note": "New objects at each instant are proved; within an instant agents share them, and the log of commands holds the agents' own objects (refuted theorems)."
  },
  {
   "property": "C111",
   "status": "proved",
   "theorems": [
    "C111_values_suffice"
   ],
   "note": ""
  },
  {
   "property": "C112",
   "status": "proved",
   "theorems": [
    "C112_vehicle",
    "C112_vehicle_dyn",
    "C112_pedestrian",
    "C112_diff_drive",
    "C112_spacecraft",
    "C112_obstacle",
    "C112_rocket",
    "C112_spaceship",
    "C112_planner"
   ],
   "note": ""
  },
  {
   "property": "C113",
   "status": "proved",
   "theorems": [
    "C113_vehicle",
    "C113_rocket",
    "C113_spaceship",
    "C113_spacecraft",
    "C113_parts",
    "C113_mirror"
   ],
   "note": ""
  },
  {
   "property": "C114",
   "status": "proved",
   "theorems": [
    "C114_parameters",
    "C114_built",
    "C114_units",
    "C114_vehicles",
    "C114_others",
    "C114_constants"
   ],
   "note": ""
  },
  {
   "property": "C115",
   "status": "proved",
   "theorems": [
    "C115_pose",
    "C115_velocity",
    "C115_footprint",
    "C115_obstacle",
    "C115_outlines",
    "C115_vehicle_mesh",
    "C115_whole",
    "C115_rigid"
   ],
   "note": ""
  },
  {
   "property": "C116",
   "status": "proved",
   "theorems": [
    "C116_slows",
    "C116_kinds",
    "C116_dynamics"
   ],
   "note": ""
  },
  {
   "property": "C117",
   "status": "proved",
   "theorems": [
    "C117_default",
    "C117_parts",
    "C117_bodies",
    "C117_mesh",
    "C117_static"
   ],
   "note": ""
  },
  {
   "property": "C118",
   "status": "partial",
   "theorems": [
    "C118_pedestrian",
    "C118_refuted",
    "C118_set_state_refuted",
    "C118_obstacle"
   ],
   "note": "Pedestrians refuse other states when made and obstacles invalid shapes; all other models accept any object and set_state checks nothing."
  },
  {
   "property": "C119",
   "status": "proved",
   "theorems": [
    "C119_free",
    "C119_once",
    "C119_wall"
   ],
   "note": ""
  },
  {
   "property": "C120",
   "status": "partial",
   "theorems": [
    "C120_vehicle",
    "C120_energy_partial",
    "C120_wall",
    "C120_head_on_partial",
    "C120_sideways_refuted",
    "C120_energy_refuted",
    "C120_corner_refuted"
   ],
   "note": "Vehicles take the forward part of the computed velocity only. No energy is gained with straight wheels, head-on impacts bounce; a car hit sideways stays, one with turned wheels can gain energy, one that hits a wall with its corner drives on into it (refuted theorems)."
  },
  {
   "property": "C121",
   "status": "partial",
   "theorems": [
    "C121_dynamic_partial",
    "C121_spin_refuted",
    "C121_pedestrian",
    "C121_pedestrian_refuted",
    "C121_diff_drive"
   ],
   "note": "Dynamic vehicles take the velocity but not the rotation; pedestrians take the rotation for their forward speed; differential drive robots take nothing (refuted theorems)."
  },
  {
   "property": "C122",
   "status": "proved",
   "theorems": [
    "C122_frame",
    "C122_vehicle",
    "C122_vehicle_dyn",
    "C122_pedestrian",
    "C122_diff_drive",
    "C122_spacecraft",
    "C122_obstacle",
    "C122_rocket",
    "C122_spaceship"
   ],
   "note": ""
  },
  {
   "property": "C123",
   "status": "proved",
   "theorems": [
    "C123_laws",
    "C123_same_make",
    "C123_flag_means_report",
    "C123_report_means_flag",
    "C123_collisions",
    "C123_report_data"
   ],
   "note": ""
  },
  {
   "property": "C124",
   "status": "proved",
   "theorems": [
    "C124_held",
    "C124_mass"
   ],
   "note": ""
  },
  {
   "property": "C125",
   "status": "proved",
   "theorems": [
    "C125_governed"
   ],
   "note": ""
  },
  {
   "property": "C126",
   "status": "proved",
   "theorems": [
    "C126_conserved"
   ],
   "note": ""
  },
  {
   "property": "C127",
   "status": "proved",
   "theorems": [
    "C127_nearest",
    "C127_nearest_difference",
    "C127_exact",
    "C127_any_form",
    "C127_infinities",
    "C127_same_run",
    "C127_thirds"
   ],
   "note": ""
  },
  {
   "property": "C128",
   "status": "proved",
   "theorems": [
    "C128_spacecraft",
    "C128_spacecraft_coasts",
    "C128_spaceship",
    "C128_rocket",
    "C128_rocket_budget",
    "C128_spaceship_budget_forward",
    "C128_spaceship_budget_refuted",
    "C128_obstacle_within_limits",
    "C128_obstacle_refuted",
    "C128_vehicle",
    "C128_drag",
    "C128_drag_refuted",
    "C128_vehicle_friction",
    "C128_pedestrian_friction"
   ],
   "note": "The statement itself names the three expectations that fail (refuted theorems); the rest is proved for every exact motion."
  },
  {
   "property": "C129",
   "status": "proved",
   "theorems": [
    "C129_sequences",
    "C129_graphs",
    "C129_impacts",
    "C129_lanes",
    "C129_obstacles",
    "C129_states",
    "C129_contexts",
    "C129_empty_log",
    "C129_agents",
    "C129_spacecraft",
    "C129_drawings",
    "C129_control"
   ],
   "note": ""
  },
  {
   "property": "C130",
   "status": "partial",
   "theorems": [
    "C130_constructor",
    "C130_weight",
    "C130_interpolation",
    "C130_constant_refuted",
    "C130_decimal",
    "C130_decimal_refuted",
    "C130_decimal_division_refuted",
    "C130_inserted",
    "C130_upsample",
    "C130_upsample_refuted"
   ],
   "note": "Proved with error bounds. Refuted: interpolation between two equal samples can differ from both; with Decimal timestamps the weight can exceed 1 and the difference of two timestamps can be 0 as a float (ZeroDivisionError); upsampling between timestamps that are too close raises ValueError."
  },
  {
   "property": "C131",
   "status": "proved",
   "theorems": [
    "C131_replay",
    "C131_commands_decide"
   ],
   "note": ""
  },
  {
   "property": "C132",
   "status": "proved",
   "theorems": [
    "C132_schedule",
    "C132_defaults"
   ],
   "note": ""
  },
  {
   "property": "C133",
   "status": "proved",
   "theorems": [
    "C133_speed_behaviour",
    "C133_controllers",
    "C133_pure_pursuit",
    "C133_states",
    "C133_tyres",
    "C133_pedestrian",
    "C133_craft",
    "C133_identity",
    "C133_lane_search",
    "C133_sampler",
    "C133_plots"
   ],
   "note": ""
  },
  {
   "property": "C134",
   "status": "proved",
   "theorems": [
    "C134_agents",
    "C134_sensors",
    "C134_no_look_ahead",
    "C134_open_loop",
    "C134_lane_follower_limits",
    "C134_lane_follower_emergency",
    "C134_delayed",
    "C134_fov_truth",
    "C134_fov_hides"
   ],
   "note": ""
  },
  {
   "property": "C135",
   "status": "proved",
   "theorems": [
    "C135_unnoticed",
    "C135_bystander",
    "C135_bystander_run",
    "C135_plan_ignores",
    "C135_ghost_ignores"
   ],
   "note": ""
  },
  {
   "property": "C136",
   "status": "proved",
   "theorems": [
    "C136_order",
    "C136_run",
    "C136_blind",
    "C136_id_sensor",
    "C136_ghost_sensor",
    "C136_delayed_sensor",
    "C136_fov_sensor",
    "C136_plan_agent",
    "C136_lane_follower",
    "C136_pileup_matters"
   ],
   "note": ""
  },
  {
   "property": "C137",
   "status": "proved",
   "theorems": [
    "C137_run",
    "C137_after",
    "C137_names",
    "C137_later",
    "C137_id_sensor",
    "C137_delayed_sensor",
    "C137_ghost_sensor",
    "C137_fov_sensor",
    "C137_plan_agent",
    "C137_lane_follower"
   ],
   "note": ""
  },
  {
   "property": "C138",
   "status": "partial",
   "theorems": [
    "C138_collision",
    "C138_obstacle",
    "C138_models",
    "C138_update",
    "C138_run",
    "C138_after",
    "C138_rocket_refuted",
    "C138_obstacle_refuted"
   ],
   "note": "Proved for every model but the rocket and for obstacles of infinite moment of inertia (the default of static obstacles); both exceptions are refuted on the model. That shapely and the agents, goals and sensors are themselves equivariant is a hypothesis (library_everywhere, company_everywhere)."
  },
  {
   "property": "C139",
   "status": "proved",
   "theorems": [
    "C139_meanwhile",
    "C139_goes_on",
    "C139_raises",
    "C139_unaffected"
   ],
   "note": "Proved for every world. The long run may of course raise an exception after the end of the short one."
  },
  {
   "property": "C140",
   "status": "partial",
   "theorems": [
    "C140_swapped",
    "C140_inside_refuted",
    "C140_same_side_refuted"
   ],
   "note": "Proved when the line through the crossing points passes between the centres. Refuted when one player is inside the other (CollisionException in one order only, C140_inside_refuted) and when one reaches more than half into the other (a player that drives out is hit again in one order and left alone in the other, C140_same_side_refuted)."
  },
  {
   "property": "C141",
   "status": "partial",
   "theorems": [
    "C141_collision",
    "C141_obstacle",
    "C141_obstacle_refuted",
    "C141_on_line_refuted"
   ],
   "note": "Proved if the centre of the first player is not on the line through the crossing points and, for obstacles, if they do not turn (the default). Both conditions are needed: C141_on_line_refuted, C141_obstacle_refuted."
  },
  {
   "property": "C142",
   "status": "proved",
   "theorems": [
    "C142_contacts",
    "C142_run",
    "C142_in_place",
    "C142_evenly",
    "C142_simulator"
   ],
   "note": ""
  },
  {
   "property": "C143",
   "status": "partial",
   "theorems": [
    "C143_vehicle",
    "C143_obstacle",
    "C143_pedestrian",
    "C143_spacecraft_rotation",
    "C143_rocket_nozzle",
    "C143_spaceship_nozzle",
    "C143_coasts",
    "C143_collision_refuted"
   ],
   "note": "Proved for the quantities that have a limit in the dynamics. That the limits hold after a collision is refuted (C143_collision_refuted). The speed of spacecraft, and of vehicles with tyre forces, is not bounded this way (C81_spacecraft_speed_refuted, C81_vehicle_dyn_refuted)."
  }
 ]
}
