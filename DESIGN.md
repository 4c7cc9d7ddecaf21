# Formal model of dg-commons in Rocq (Coq 8.16.1)

The theorems are about a shallow Gallina model of `/repo/src/dg_commons`.
The code itself is not run; the link between code and model is the citation
(file and lines) in the comment on every definition.

## Layout

* `rocq/theories/*Model.v` - definitions that mirror the code, function by
  function, with a `/repo` citation. No proofs.
* `rocq/theories/*Spec.v` - small independent specifications used in the
  theorem statements (only where the statement needs more than stdlib notions).
* `rocq/theories/*Proofs.v` - lemmas.
* `rocq/theories/*Props.v` - the property theorems, each closed by `exact`,
  with `Print Assumptions` and the concrete examples that meet its hypotheses.

## Modelling conventions

* Exceptions are values: `result A := Ok a | Err e` with one constructor of
  `exn` per Python exception class that matters.
* Numbers that are only compared, added, multiplied and divided (timestamps,
  sampled values, controller signals, limits) are exact rationals `Qc`
  (Leibniz equality, computable). Every finite `int`, `float` and `Decimal` is
  such a rational and Python compares them exactly across types; the
  *rounding of float arithmetic is not modelled*, except in FloatModel.v (C130);
  that of Decimal sums only in DecModel.v (C127).
* Where trigonometry, square roots or norms occur, numbers are Coq reals `R`.
* External code is a universally quantified parameter of the theorems
  (agents, goals, vehicle dynamics, shapely predicates, ODE solver, optimiser):
  the theorems hold for whatever it returns.
* Python dicts are association lists in insertion order with unique keys.
* Mutable objects become state passing; aliasing is modelled where the
  property is about it. For the simulator both forms exist and C111 relates
  them.

## Trusted base

* Coq 8.16.1's kernel, including its virtual machine (`vm_compute` is used in
  concrete examples and in some refutations).
* The reading of the Python source into the model: the comment on every
  definition cites the file and lines it was read from and says what it
  simplifies.
* The meaning given to external code. Where a theorem depends on external code
  (shapely, scipy, numpy.fft, networkx, commonroad, matplotlib, agents, policies)
  that code is a universally quantified function. If the theorem needs it to be
  right, the hypothesis saying so is in the statement.
* No axioms of our own, no functors, no module types, no kernel check switched
  off. What `Print Assumptions` lists for each theorem is in the section
  "Assumptions of each theorem" (generated by `tools/gen_assumptions.py`). Only
  axioms of Coq's standard library occur:
  * `ClassicalDedekindReals.sig_forall_dec`, `ClassicalDedekindReals.sig_not_dec`
    and `FunctionalExtensionality.functional_extensionality_dep`: the
    construction of the real numbers `R`. Theorems over `R` use them.
  * `Classical_Prop.classic`: excluded middle. It comes with lemmas of the
    standard library's real analysis (derivatives, `atan`, `acos`, `sqrt`).
  * `ClassicalEpsilon.constructive_indefinite_description`: only in four examples:
    `C38_goal_ex` and `C86_ex`, which need an exact minimiser of a continuous
    function as a concrete oracle, and `C124_ex` and `C125_ex`, which need an exact
    solver. No theorem uses it.
* C130 uses definitions and lemmas of Flocq (IEEE 754 arithmetic), which add no
  axioms to those above.
* `coqchk -o` on the whole library additionally lists axioms of standard-library
  files that are loaded but not used by any theorem, and the opaque module
  fields `RbaseSymbolsImpl.*` (the abstract definitions of the reals' operations)
  and `Coq.ssr.ssrunder.Under_rel.*` (ssreflect's `under` tactic). They are not
  assumptions of any theorem here.

### What the numbers leave out

Rounding is not modelled, with three exceptions: the accumulated time of the
time-to-collision metric (C65) is the IEEE double sum, C127 has the simulation
clock with the rounding of `Decimal`, and C130 has the interpolation and the
upsampling of sequences in binary64 arithmetic. Consequences that are known to
matter:

* vehicle_dynamic.py:163,174: the argument of the square root is never negative
  over the reals (C83), but may be slightly negative in floating point.
* scipy's ODE solver chooses its first step from the derivative at the initial
  state, which includes the commands; C56 therefore speaks of the right-hand
  side, i.e. of a given sequence of steps.
* Interpolated values are off the straight line by rounding errors; C130 bounds
  them. For the seven significant digits of a typical state they do not matter.
* The simulation clock is a `Decimal`. Its sums are exact for times of up to 27
  digits, so C20 to C30 hold of it (C127_same_run); beyond that they may not
  (C127_thirds).

## Modelled and not modelled

All Python modules under `src/dg_commons` were read. Of about 600 functions some
530 have a definition in the model with a citation. By package:

* `seq`, `utils_toolz.py`, `time.py`, `geo.py`, `game_types.py`: everything with
  behaviour (Seq, Toolz, Geo). Not modelled: pretty printing, type
  registration of the subscripted generic classes beyond what C09 needs.
* `planning`: trajectories, trajectory graphs, samplers, motion primitives
  (Traj, Plan). networkx's path searches are quantified functions with their
  contract as hypothesis.
* `controllers`, `dynamics`: PID, speed and steering controllers, pure pursuit,
  bicycle dynamics (Ctrl, Pursuit, Plan, Move), reports of lane followers
  (Follow). The optimiser of pure pursuit is an oracle.
* `maps`: lanes, road boundaries, shape drawing, shape generation (Lane, Road,
  Draw, Shape). Shapely's boolean operations and buffers are oracles.
* `perception`, `sim/sim_perception.py`: filters and the ray sensor (Perception,
  Sensor). The visibility computation is an oracle with a contract.
* `sim/simulator.py`, `simulator_structures.py`: the whole loop, logs and
  context (Simulator), and once more with objects and references instead of
  values (Heap; C111 proves the two agree for agents that write to nothing). Agents, models and goals are arbitrary stateful oracles.
  Not modelled: the wall-clock durations that are logged (they are arbitrary
  values), log messages.
* `sim/collision*.py`: detection, impact geometry, impulses, reports, faults and
  pictures (Coll, Crash).
* `sim/models`: states, commands, parameters, constraints, dynamics, outlines,
  meshes, lights (Data, Dyn, Body, Draw, Light). The ODE solver is an oracle or,
  in C81, any differentiable solution; C112 takes any explicit Runge-Kutta method.
  Parameters and their checks, geometries, constructors, ready-made models,
  footprints and meshes of whole models (Build), enclosed regions of outlines
  (Outline), collisions of whole models (Impact: the models of Build given to the
  collision code of Coll; shapely's answers stay arbitrary), `update` on state objects
  and arrays, and the whole simulator run with these models (Loop: the world over
  which Simulator is written, instantiated). In Loop a footprint or velocity method
  that raises ends the collision check of that pair with an error value, and the run
  goes on as in Simulator.v, so that the runs of the model include all completed runs of
  the code; a collision without a normal, for which the code computes nan, writes no
  velocities. Not modelled: abstract methods.
* `sim/goals.py`, `sim/scenarios`: goals, scenario import, lane inference (Goal,
  Scenario). commonroad's file reader and lanelet network are oracles.
* `sim/simulator_animation.py`, `simulator_visualisation.py`,
  `log_visualisation.py`, `maps/shapely_viz.py`: what is drawn, where, in which
  order and for which frame (Anim, Draw). Not modelled: fonts, line widths,
  rasterisation, video encoding.
* `eval`: safety, comfort and efficiency metrics (Eval). `numpy.fft` is the
  discrete Fourier transform by definition.

## Findings

Theorems ending in `_refuted` show that the code does not do what a user would
rely on. In each case the negation is proved of the faithful model, usually with
a concrete witness.

* Sequences: NaN and infinite timestamps are accepted (C01); iterating a
  sequence built through the bare class is an AttributeError (C09).
* Trajectories: `merge` drops a first sample that is no duplicate (C14);
  `commands_plan_from_trajectory` is a TypeError for every trajectory with two
  samples or more (C16); only one path per leaf is enumerated, nodes already
  present get new generations, commands follow a shortest path instead of the given
  trajectory (C17); `CommandsSamplerParam.from_vehicle_parameters` fails for the
  default vehicles (C19).
* Simulator: an object used for a second run keeps data of the first one (C29);
  the log of commands holds the agents' own objects and changes with them, and
  the agents of one instant are shown the same state objects (C110).
* Rounding: equal samples are not always interpolated by themselves, with Decimal
  timestamps the weight can exceed 1 or need a division by zero, upsampling fails
  between timestamps that are too close (C130).
* Perception: the field of view keeps the obstacles of an earlier scenario
  (C31); a ghost at distance exactly 0 is visible with threshold 0 (C33);
  range 0 passes the checks of the sensor and then fails, narrow or negative
  fields of view give no polygon, obstacles between two rays are unseen (C67).
* Agents: PolicyAgent gives the policy the observation entry, not the state
  (C34); the lights of lane followers are random (C73); the `pure_pursuit`
  argument is ignored (C74).
* Controllers: antiwindup limits without 0 break proportional control (C36);
  unchecked lookahead limits, non-zero steering straight ahead (C38).
* Collisions: reported energies ignore rotation (C42); concentric bodies give a
  nan normal (C44); off the map both players are at fault (C45); combining
  reports is not associative out of time order and the empty report is not
  neutral (C46); the impulse law fails for obstacles of finite mass (C40).
  Not proved, only noted: a collision with a two-point line obstacle changes
  velocities and then fails in `Polygon(LineString)`.
* Lanes: stale cache after editing control points (C48); a pose at the
  end of a lane is neither before, inside nor after (C49); beyond the ends the along-lane coordinate counts ten
  times (C76); heading of the fast centre point (C77); two tests for being
  inside disagree (C79).
* Vehicles: the acceleration limit may be left (C51); lights and spacecraft
  arrays do not round trip (C53); `2 * x` is not `x * 2` for dynamic vehicle
  states (C54);
  velocities do not read back (C55); collided cars and obstacles still obey
  (C56); spaceships gain mass (C58); the default 4-parameter tyre is not one
  (C59); the speeds of spacecraft and dynamic vehicles leave their limits (C81); velocities that are not the rate of change of the pose (C82).
* Geometry: a pose applied to an empty list of points fails (C60); the pose
  distance is no metric (C75).
* Metrics: the search for the goal lane may not return, and a predecessor of the
  goal lane counts as reached (C64); contact between steps is missed (C65);
  KeyError for players without missions (C66); agents whose centres move apart
  are skipped (C87); odd sample counts are weighted n/(n-1) and timestamps are
  ignored (C85).
* Goals: progress in metres is used as a lane parameter, the goal at the end of
  a lane is 0.1 m beyond it, pose goals cannot be drawn (C86).
* Bodies: width excludes tyres, steered wheels stick out, the mesh of the
  differential drive covers a sliver (C84); requested rocket length ignored,
  thrusters outside the footprint, torque and flames (C96).
* Shapes: random polygons are truncated to integers (C69).
* Lights: a shared table is changed in place, so brake lights stick (C70).
* Scenarios: static obstacles are not moved to their pose, walking pedestrians
  break the import, missions are ignored, the ego may be missing (C68); ids are
  compared as substrings, angles without wrapping (C88); body size and steering
  of imported vehicles (C89); names with a directory part are never found (C90).
* Animations and drawings: documented empty name fails (C92), last interval never
  shown, late logs fail, frame rate rounded (C93), all pairs instead of the ego's
  (C94), parts asked for later (C95), holes and parts painted over, documented
  shapes TypeError (C97), pose goals, late and stale trajectories (C98), figures
  that are not current (C99), unresolved collisions and the arrow of the rotation
  (C101), impact direction not wrapped (C102).
* Trajectories: headings between samples of a moved trajectory are wrong, the
  result of moving is no Trajectory (C103); planned motions leave the limits the
  simulator enforces (C106); forward limits of obstacles act sideways (C105).
* Lane followers: the reported line starts at the wrong place unless lf = lr,
  reports before the first commands fail, a given pure pursuit controller is
  ignored (C107).
* Models: all but pedestrians accept states of any class, and set_state checks
  nothing (C118); friction of the spaceship and of obstacles is a
  NotImplementedError (C116).
* Collisions of models: cars hit from the side stay where they are, turned wheels
  can gain energy, corners go on into the wall (C120); dynamic cars do not start to
  turn, pedestrians hit from behind do not move (C121).
* Which player is named first matters when one is inside the other or reaches more
  than half into it (C140); obstacles that can turn are not treated alike on both
  sides (C141).
* Mechanics: a turning obstacle becomes faster without commands, the drag of
  vehicles is not quadratic in the speed, spaceships in reverse have no limit
  of velocity (C128); with times of more than 27 digits the clock of the
  simulator rounds (C127).
* Roads: borders of holes are blocked at open ends; closed roads and buffer 0 are
  AttributeErrors (C100).

## Assumptions of each theorem

<!-- assumptions -->
**Closed under the global context (no axioms)** - 272 theorems:

* AgentProps: C34_plan_is_played, C34_policy_applied_to_state_refuted, C34_policy_partial, C35_emergency_latches, C35_no_emergency_tracks_behaviour, C35_commands_in_limits, C73_same_inputs_same_commands_refuted, C73_same_inputs_same_commands_partial, C74_given_behaviour_used_partial, C74_given_pursuit_used_refuted
* AnimProps: C92_fixed, C93_frames, C93_last_instant_refuted, C93_late_start_refuted, C93_refused, C93_run, C93_speed, C93_real_time_refuted, C93_file, C94_who_collided, C94_with_the_ego_refuted, C94_run, C22_computation_times_logged, C101_run
* ApartProps: C135_unnoticed, C135_bystander, C135_bystander_run, C135_plan_ignores, C135_ghost_ignores
* BuildProps: C118_set_state_refuted, C118_obstacle
* CauseProps: C134_agents, C134_sensors, C134_no_look_ahead, C134_open_loop, C134_lane_follower_limits, C134_lane_follower_emergency, C134_delayed, C134_fov_truth, C134_fov_hides
* CtrlProps: C36_params_checked, C36_limits, C36_reference_saturated, C36_control_law, C36_same_time_no_derivative, C36_proportional_only_partial, C36_proportional_only_refuted, C37_reference, C37_bounds, C37_more_agents_never_faster, C37_order_irrelevant, C37_needs_observations, C39_steering_rate_in_limits, C39_speed_command_in_limits, C39_controllers_exist
* DataProps: C53_vehicle_commands_partial, C53_construct
* DecProps: C127_nearest, C127_nearest_difference, C127_exact, C127_any_form, C127_infinities, C127_same_run, C127_thirds
* DefaultProps: C133_speed_behaviour, C133_controllers, C133_sampler, C133_plots
* DrawProps: C97_others, C97_documented_refuted, C98_moving_goal, C98_static_goal, C98_trajectories_partial, C98_late_refuted, C98_stale_refuted, C99_player, C99_players, C99_default_figure, C99_other_figure_refuted, C99_empty
* DynProps: C57_limits, C57_change
* EvalProps: C62_max_jerk, C62_no_interval, C64_next_lane, C64_first_time, C87_has_collision
* FollowProps: C107_silent, C107_before_commands_refuted
* GeoProps: C61_polygon, C61_line, C61_dispatch
* GoalProps: C86_plot_refuted
* HeapProps: C108_states_log, C108_entries_stay, C109_states_move_by_commands, C109_start_states_untouched, C110_shown_states, C110_same_objects_refuted, C110_commands_log_refuted, C111_values_suffice
* LaneProps: C48_cache
* LightProps: C70_shown, C70_history, C70_partial, C70_refuted, C70_front, C70_others
* LimitProps: C139_meanwhile, C139_goes_on, C139_raises, C139_unaffected
* MorphProps: C137_run, C137_after, C137_names, C137_later, C137_id_sensor, C137_delayed_sensor, C137_ghost_sensor, C137_fov_sensor, C137_plan_agent, C137_lane_follower
* MoveProps: C103_path
* OrderProps: C136_order, C136_run, C136_blind, C136_id_sensor, C136_ghost_sensor, C136_delayed_sensor, C136_fov_sensor, C136_plan_agent, C136_lane_follower, C136_pileup_matters
* PairsProps: C142_contacts, C142_run
* PerceptionProps: C31_only_removes, C31_shows_exactly_the_visible, C31_visible_after_repair, C31_observer_must_be_present, C31_scenario_change_refuted, C32_data_age, C32_exact, C32_always_answers, C32_negative_latency_fails, C32_history, C32_outputs_in_recording_order, C32_regular_sampling, C32_stacked_delays_add, C33_ghost_exactly, C33_zero_always_ghosted_refuted, C33_zero_ghosted_partial
* PlanProps: C18_primitives_are_the_feasible_drives, C18_primitive_samples, C18_generate_total, C18_bicycle_primitives_reach_their_target, C18_grid_inside_range, C19_sampler_ranges_inside_limits, C19_one_trajectory_per_grid_pair, C19_generate_total, C19_from_vehicle_parameters, C19_from_vehicle_refuted
* RaiseProps: C129_sequences, C129_graphs, C129_states, C129_contexts, C129_empty_log, C129_agents
* ReplayProps: C131_replay, C131_commands_decide
* ScenarioProps: C90_found, C90_complete, C90_last, C90_ending, C90_path_refuted
* SchedProps: C132_schedule, C132_defaults
* SeqProps: C01_constructor_accepts_iff, C01_constructor_python_numbers, C01_views_agree, C01_every_obtainable_sequence_increasing, C01_derived_constructions_total, C01_nan_timestamps_refuted, C01_inf_timestamps_refuted, C02_at_exact_lookup, C03_at_or_previous_zero_order_hold, C04_at_interp_contract, C04_at_interp_numbers, C05_subsequence_is_closed_window, C05_subsequence_membership, C06_shift_is_time_translation, C06_shift_back_is_identity, C07_transform_keeps_defined_images, C07_transform_total_function, C08_builder_refines_list, C09_iterate_adjacent_pairs, C09_untyped_sequence_refuted, C10_accumulate_running_sum, C10_integrate_running_area, C10_integrate_short, C10_integrate_additive, C10_integrate_constant, C11_differentiate_slopes, C11_differentiate_telescopes, C11_differentiate_line, C12_crossings_sound, C12_crossings_complete
* SimulatorProps: C20_time_is_the_dt_grid, C20_each_tick_logged_once, C21_run_ends, C21_run_always_ends, C21_no_iteration_past_the_limit, C22_asked_exactly_when_due, C22_first_request_at_start, C22_requests_spaced, C22_players_asked_together, C22_model_stepped_each_iteration, C22_command_held, C22_command_log_is_requests, C23_leaves_iff_goal_fulfilled, C23_gone_for_good, C23_no_mission_never_leaves, C24_only_user_code_raises, C24_every_player_gets_its_log, C25_observations_are_snapshots, C25_same_view_for_all, C25_delivered_observations_are_final, C26_stops_only_for_a_reason, C26_over_iff_reason, C27_every_touching_pair_once, C27_reports_are_the_calls, C27_reports_in_time_order, C28_every_environment_candidate, C28_only_active_players, C28_moving_obstacles_not_reported, C29_new_simulators_are_independent, C29_reuse_refuted, C29_reuse_silent_refuted, C30_init_time_is_least, C30_last_time_is_greatest, C30_at_interp_contract, C30_at_interp_defined, C30_undefined_before_first_command
* ToolzProps: C13_yields_exactly_the_choices, C13_each_choice_once, C13_count, C72_mapping_helpers, C72_fs_is_the_set, C71_timing_is_transparent, C71_timing_only_adds_a_log_line, C71_callable_object_refuted
* TrajProps: C14_merge_accepts, C14_merge_result, C14_merge_keeps_everything, C14_merge_keeps_everything_refuted, C14_merge_associative, C14_merge_unsafe, C15_upsample_refines, C15_upsample_span, C15_upsample_0, C16_commands_plan_refuted, C16_commands_plan_partial, C17_add_edge_effect, C17_always_acyclic, C17_get_trajectory, C17_get_transition, C17_all_trajectories, C17_all_transitions, C17_needs_one_root, C17_commands_on_trajectory, C17_every_path_refuted, C17_generation_kept_refuted, C17_commands_follow_trajectory_refuted

**`ClassicalDedekindReals.sig_forall_dec`** - 17 theorems:

* BuildProps: C116_kinds
* DataProps: C53_round_trip, C53_array_round_trip, C53_lights_refuted, C53_spacecraft_refuted, C53_wrong_length, C53_layout, C54_extensional, C54_add, C54_scale, C54_other_type, C54_scalar_left, C54_scalar_left_dyn_partial, C54_to_vehicle_state
* DefaultProps: C133_states
* DrawProps: C98_arena
* RoadProps: C100_closed_refuted

**`ClassicalDedekindReals.sig_forall_dec`, `FunctionalExtensionality.functional_extensionality_dep`** - 68 theorems:

* BodyProps: C84_outline, C84_lights, C84_width_refuted
* BuildProps: C114_parameters, C114_built, C114_units, C116_slows
* CollProps: C46_combine, C46_commutative, C46_different_players, C46_associative, C46_unordered_associative_refuted, C46_accident, C46_empty_not_neutral_refuted
* CrashProps: C101_picture, C101_defined, C101_unresolved_refuted, C101_turn_refuted
* DataProps: C54_sub, C54_div, C54_comm, C54_assoc, C54_zero, C54_distr, C54_scalar_left_refuted
* DefaultProps: C133_craft
* DrawProps: C96_rocket, C96_requested_length_refuted, C96_spaceship, C97_polygon, C97_holes_refuted, C97_parts_refuted, C98_obstacles_over_goals
* DynProps: C51_within_partial, C51_within_or_zero, C51_within_refuted, C51_speed_limits, C51_identity, C51_recover, C52_steering, C52_steering_nearest, C52_rotation, C52_nozzle, C52_rotational_speed, C52_force, C58_thrust, C58_spaceship_thrust, C59_default_4p_refuted, C83_normal_forces, C83_split
* EvalProps: C85_weight_range
* GeoProps: C60_point_lists
* MoveProps: C106_rk45
* OutlineProps: C113_vehicle, C113_rocket, C113_spaceship, C113_parts, C113_mirror
* PursuitProps: C38_lookahead, C38_unchecked_limits_refuted
* RaiseProps: C129_spacecraft
* RoadProps: C100_gates, C100_bounds_partial, C100_holes_refuted, C100_zero_buffer_refuted, C100_defined_partial
* ScenarioProps: C91_obstacles, C91_negative

**`ClassicalDedekindReals.sig_forall_dec`, `ClassicalDedekindReals.sig_not_dec`, `FunctionalExtensionality.functional_extensionality_dep`** - 205 theorems:

* AnimProps: C92_auto, C92_auto_empty, C92_follow, C92_follow_fails, C92_fallback_refuted
* BeyondProps: C143_coasts, C143_collision_refuted
* BodyProps: C84_unknown_type, C84_wheels_partial, C84_steered_wheels_refuted, C84_short_front_refuted, C84_robot_wheels_refuted, C84_wheel_places, C84_robot_wheels, C84_steering, C84_footprint, C84_vehicle_mesh, C84_mesh_covers, C84_robot_mesh_refuted
* BuildProps: C114_vehicles, C114_others, C114_constants, C115_pose, C115_velocity, C115_footprint, C115_obstacle, C115_outlines, C115_vehicle_mesh, C115_whole, C115_rigid, C116_dynamics, C117_default, C117_parts, C117_bodies, C117_mesh, C117_static, C118_pedestrian, C118_refuted
* CollProps: C40_restitution, C40_restitution_environment, C40_light_obstacle_refuted, C41_momentum, C42_energy, C42_energy_environment, C42_reported_energy_refuted, C43_separating, C43_separating_environment, C43_resolved, C43_resolved_environment, C43_exception_after_flagging, C44_normal, C44_defined, C44_concentric_refuted, C44_crossings, C45_fault, C45_no_lane_refuted
* CrashProps: C101_resolved, C101_resolved_environment
* DataProps: C55_set_get, C55_vehicle_partial, C55_vehicle_refuted, C55_vehicle_dyn_partial, C55_vehicle_dyn_refuted, C55_pedestrian_refuted, C55_diff_drive_refuted, C55_pose_kept
* DefaultProps: C133_pedestrian, C133_identity
* DrawProps: C95_vehicle, C95_pedestrian, C95_obstacle, C95_diff_drive, C95_spacecraft, C95_rocket, C95_spaceship, C95_refused, C95_later_refuted, C96_spacecraft, C96_pedestrian, C96_thrusters_refuted, C96_rocket_thrust, C96_rocket_torque_refuted, C96_spaceship_thrust, C96_flames, C96_flames_refuted
* DynProps: C56_obstacle_refuted, C58_spaceship_refuted, C81_spacecraft_speed_refuted, C82_vehicle, C82_spacecraft, C82_obstacle, C82_spaceship, C82_pedestrian_partial, C82_rocket_partial, C82_rocket_refuted, C82_diff_drive_rolls, C82_diff_drive_refuted
* EvalProps: C63_distance, C63_displacement, C63_rest, C63_split, C65_first_prediction, C65_tunnelling_refuted, C66_minimum, C66_minimum_at_time, C66_defined, C66_player_without_goal_refuted, C87_min_ttc_max_drac, C87_drac_value, C87_missed_contact_refuted, C85_window, C85_defined, C85_homogeneous, C85_oscillation, C85_constant_even, C85_constant_odd_refuted, C85_timestamps_ignored_refuted
* FollowProps: C107_line, C107_rear_axle_refuted, C107_given_controller_refuted
* GeoProps: C60_pose_of_state, C60_relative_pose, C60_apply_is_rigid, C60_empty_point_list_refuted, C60_position_distance
* ImpactProps: C119_free, C119_once, C119_wall, C120_vehicle, C120_energy_partial, C120_wall, C120_head_on_partial, C120_sideways_refuted, C120_energy_refuted, C120_corner_refuted, C121_dynamic_partial, C121_spin_refuted, C121_pedestrian, C121_pedestrian_refuted, C121_diff_drive
* IntegProps: C112_vehicle, C112_pedestrian, C112_diff_drive, C112_spacecraft, C112_obstacle, C112_rocket, C112_spaceship, C112_planner
* MoveProps: C104_vehicle, C104_pedestrian, C104_diff_drive, C104_spacecraft, C104_obstacle, C104_rocket, C104_spaceship, C104_planner, C104_moved_start, C105_vehicle, C105_planner, C105_pedestrian, C105_diff_drive, C105_spacecraft, C105_obstacle, C105_rocket, C105_spaceship, C105_obstacle_refuted, C106_same_steps, C106_same_motion, C106_one_step, C106_integrated, C106_limits_refuted
* NewtonProps: C128_spacecraft, C128_spacecraft_coasts, C128_spaceship, C128_rocket, C128_obstacle_within_limits, C128_obstacle_refuted, C128_pedestrian_friction
* OutlineProps: C113_spacecraft
* PlaceProps: C138_collision, C138_obstacle, C138_models, C138_rocket_refuted, C138_obstacle_refuted
* PursuitProps: C38_goal_point
* RaiseProps: C129_impacts, C129_drawings
* RoadProps: C100_lanes_clear, C100_ends_open_partial, C100_scenario
* SensorProps: C67_in_range, C67_nearest_hit
* ShapeProps: C69_star, C69_random_partial, C69_no_vertices, C69_small_refuted, C69_far_refuted, C69_irregular_refuted
* SwapProps: C140_swapped, C140_inside_refuted, C140_same_side_refuted, C141_collision, C141_obstacle, C141_obstacle_refuted, C141_on_line_refuted

**`ClassicalDedekindReals.sig_forall_dec`, `ClassicalDedekindReals.sig_not_dec`, `Classical_Prop.classic`, `FunctionalExtensionality.functional_extensionality_dep`** - 172 theorems:

* BeyondProps: C143_vehicle, C143_obstacle, C143_pedestrian, C143_spacecraft_rotation, C143_rocket_nozzle, C143_spaceship_nozzle
* CrashProps: C102_direction, C102_relative, C102_range, C102_normalised_refuted
* DefaultProps: C133_pure_pursuit, C133_tyres, C133_lane_search
* DrawProps: C98_pose_goal_refuted
* DynProps: C56_deaf_partial, C56_car_refuted, C58_rocket, C58_spaceship_partial, C59_bounded, C59_zero, C59_odd, C59_peak, C81_vehicle, C81_pedestrian, C81_obstacle, C81_spacecraft_rotation, C81_rocket_nozzle, C81_spaceship_nozzle, C82_vehicle_dyn_partial, C82_vehicle_dyn_refuted, C82_pedestrian_refuted, C83_friction_circle, C83_defined, C81_vehicle_dyn_refuted
* EvalProps: C64_alongside_goal_lane, C64_ends, C64_positive_answer, C64_returns_soon_or_never, C64_returns_partial, C64_returns_refuted, C64_predecessor_refuted
* FloatProps: C130_constructor, C130_weight, C130_interpolation, C130_constant_refuted, C130_decimal, C130_decimal_refuted, C130_decimal_division_refuted, C130_inserted, C130_upsample, C130_upsample_refuted
* FollowProps: C107_line_of_sight
* GeoProps: C60_pose_round_trip, C60_matrix_round_trip, C60_interpolate, C75_pose_distance_partial, C75_zero_means_same_pose_refuted, C75_triangle_inequality_refuted
* GoalProps: C86_pose_goal, C86_pose_goal_tolerance, C86_position_only, C86_no_pose, C86_lane_end, C86_lane_end_refuted, C86_not_before, C86_ref_lane_partial, C86_ref_lane_refuted, C86_static, C86_plot_partial
* IntegProps: C112_vehicle_dyn
* LaneProps: C47_defined, C47_position_parameter_position, C47_parameter_position_parameter, C47_monotone_position, C47_monotone_parameter, C47_end_points, C48_lengths, C48_detour, C48_stale_cache_refuted, C49_classification, C49_end_of_lane_refuted, C49_along_partial, C49_of_pose, C50_centre_line, C50_control_points, C50_radius, C50_fast_on_segment, C76_inside_partial, C76_outside_refuted, C77_fast_heading_partial, C77_fast_heading_refuted, C78_borders, C78_lengths, C79_inside_sound, C79_tests_disagree_refuted, C80_outline, C80_short_outlines
* LoopProps: C122_frame, C122_vehicle, C122_vehicle_dyn, C122_pedestrian, C122_diff_drive, C122_spacecraft, C122_obstacle, C122_rocket, C122_spaceship, C123_laws, C123_same_make, C123_flag_means_report, C123_report_means_flag, C123_collisions, C123_report_data, C124_held, C124_mass, C125_governed, C126_conserved
* MoveProps: C103_moved, C103_moved_twice, C103_between, C103_heading_between_refuted, C103_result_class_refuted, C104_vehicle_dyn, C105_vehicle_dyn
* NewtonProps: C128_rocket_budget, C128_spaceship_budget_forward, C128_spaceship_budget_refuted, C128_vehicle, C128_drag, C128_drag_refuted, C128_vehicle_friction
* PairsProps: C142_in_place, C142_evenly, C142_simulator
* PlaceProps: C138_update, C138_run, C138_after
* PursuitProps: C38_needs_pose_and_path, C38_steering_law, C38_steering_sign, C38_straight_ahead_refuted, C38_straight_ahead_partial, C38_defined
* RaiseProps: C129_lanes, C129_obstacles, C129_control
* ScenarioProps: C68_players, C68_agents, C68_statics, C68_static_pose_refuted, C68_pedestrian_refuted, C68_succeeds_partial, C68_missions_refuted, C68_ego_refuted, C68_loop_refuted, C88_lane, C88_complete, C88_defined, C88_position, C88_wrong_lane_refuted, C88_angle_refuted, C89_state, C89_body, C89_size_refuted, C89_steering_refuted
* SensorProps: C67_constructor, C67_zero_range_refuted, C67_rays, C67_spacing, C67_narrow_refuted, C67_negative_fov_refuted, C67_between_rays_refuted, C67_full_range
<!-- /assumptions -->

## Plan per property

* **C01 Sampled sequences have strictly increasing timestamps.** Ctor model over tagged stamps (int/float/Decimal, NaN, inf); iff with length equality and strict sortedness; preserved by each operation by induction. NaN/inf acceptance is a refutation recorded separately.
* **C02 at() is exact lookup.** `tuple.index` as first-match search; iff theorem by list induction.
* **C03 at_or_previous() is zero-order hold.** `bisect_right` modelled as the actual binary search, proved equal to counting on sorted lists; result characterised by the maximal index.
* **C04 at_interp() interpolates linearly and holds the ends.** Same bisect; arithmetic over Qc.
* **C05 get_subsequence() is the closed time window.** Slices by bisect_left/right = filter on the closed window.
* **C06 shift_timestamps() is a pure time translation.** List induction, uniqueness of the bisect result under translation.
* **C07 transform_values() keeps exactly the defined images.** Polymorphic f : X -> option Y; filter/map fusion.
* **C08 Sequence builder accepts only forward time and snapshots.** State machine over a history of add/as_sequence; refinement to a list of accepted samples.
* **C09 iterate_with_dt() visits every adjacent pair once.** List induction, telescoping sum.
* **C10 seq_accumulate / seq_integrate are running sum and running trapezoid integral.** Running sums compared with an independent area definition; linearity.
* **C11 seq_differentiate is the exact chord slope and inverts the sum.** Telescoping; midpoint strictly inside.
* **C12 find_crossings returns exactly the level crossings.** signbit on rationals = (x<0); soundness and completeness by adjacent-pair induction.
* **C13 iterate_dict_combinations is the Cartesian product.** itertools.product as nested flat_map; membership iff pointwise choice; NoDup; count.
* **C14 Trajectory concatenation.** merge/merge_unsafe over abstract states with speed/steering projections.
* **C15 upsample(n) refines without changing samples.** np.linspace-like interpolation points; counting and sub-list theorems.
* **C16 A trajectory yields a commands plan.** Model of tuple-unpacking an IterateDT (TypeError): expected refutation.
* **C17 Trajectory graph generation bookkeeping.** Graph as node/edge lists; generation invariant over add_edge histories; the membership test on the bare state is modelled as written.
* **C18 Motion primitives respect grid and input limits.** Generator as nested loops over the grid with dynamics as oracle.
* **C19 Commands sampler enumerates the command grid.** Grid enumeration; from_vehicle_parameters expected to be refuted.
* **C20 Simulation time is the exact dt grid and each active player is logged once per tick.** Simulator state machine, agents/models/goals/collision geometry as oracles; induction over steps.
* **C21 Every run terminates by the time limit.** Fuel-bounded loop proved not to run out of fuel for every oracle.
* **C22 Commands are requested at the commands period and held in between.** Invariant on last request time; ghost trace of requests and applied commands.
* **C23 Finished players leave for good.** Invariant on the active-player list along the trace.
* **C24 Logging never fails and every player gets a log.** Invariant: log stamps of each player are < current time.
* **C25 All agents observe the same instant.** pre_update snapshot; permutation invariance.
* **C26 A run stops only for a stated reason.** Termination predicate characterised by an independent proposition.
* **C27 Player-player collisions are recorded for every touching pair at every checked tick.** combinations of two; invariant on the report list.
* **C28 Environment collisions.** Same for environment candidates returned by an STRtree oracle.
* **C29 A simulator object can be reused.** Two successive runs sharing the simulator fields; expected refutation.
* **C30 Simulation log queries.** min/max over player logs; reuse of C03/C04.
* **C31 Field-of-view filter only removes.** Visibility as oracle; subset theorem.
* **C32 Delay filter never shows data older than the latency and is exact when sampled.** Queue model (list of stamped observations), invariant over feeding histories.
* **C33 Ghost filter hides exactly the configured players.** Filter on distance oracle; documented threshold 0 expected to be refuted at distance 0.
* **C34 Open-loop agent plays its plan.** Corollary of C03; PolicyAgent argument modelled as written.
* **C35 Lane follower brakes for good after an emergency.** Latch invariant over histories.
* **C36 PID output and integral always stay in their limits.** PID as state machine over Qc; invariants over call histories.
* **C37 Speed behaviour never asks to go backwards or above the cap.** Behaviour functions over lists of observed agents.
* **C38 Pure pursuit lookahead and steering are well defined.** Clip and geometry over R.
* **C39 Steering controller.** Instance of C36.
* **C40 Impulse obeys the restitution law.** Real algebra over 2-vectors.
* **C41 Collisions conserve momentum.** Real algebra.
* **C42 Collisions never create kinetic energy.** Real algebra: delta KE = -(1-e^2) vn^2 / (2k).
* **C43 Separating bodies are left alone.** Effect model of resolve_collision.
* **C44 Impact normal is a unit vector pointing from the first to the second body.** Normalisation over R; degenerate case noted.
* **C45 Fault attribution.** all/any over lanelet lists; empty list case expected to be refuted.
* **C46 Combining collision reports is a monoid operation on time-ordered reports.** Report algebra; associativity for time-ordered reports, refutation for unordered.
* **C47 Lane parametrisations are inverse of each other.** Piecewise linear maps over lists of segment lengths.
* **C48 Lane length is the sum of segment lengths.** Sum of list.
* **C49 Every pose is classified along the lane exactly once.** Case analysis; along_lane = length expected to be refuted.
* **C50 Centre line and radius pass through control points.** SE(2) interpolation over R; its speed is computed as a derivative.
* **C51 Acceleration limiting keeps speed in its limits.** Case analysis over Qc.
* **C52 Steering and rotation constraints.** Case analysis over Qc.
* **C53 States and commands survive the array round trip.** Each class; SpacecraftCommands expected to be refuted.
* **C54 States and commands form a vector space.** Each class; VehicleStateDyn right-multiplication expected to be refuted.
* **C55 Setting a velocity and reading it back.** Each model over R with cos/sin; several expected refutations.
* **C56 Collided models ignore commands.** Relational lemma on the update functions.
* **C57 Bicycle successor keeps speed and steering in limits.** Clipping lemmas.
* **C58 Rockets and spaceships never gain mass.** Sign of the mass derivative; Spaceship with negative thrust expected to be refuted.
* **C59 Tyre force is bounded.** |D sin(..)| <= |D|.
* **C60 Planar poses behave as a group.** SE2 matrices over R.
* **C61 Geometry conversions keep all vertices.** List lemmas.
* **C62 Comfort metrics.** max over list.
* **C63 Distance traveled.** Triangle inequality by induction.
* **C64 Goal-lane reachability query terminates.** Graph walk with fuel; expected non-termination witness.
* **C65 Time to collision is the first colliding prediction.** Loop with decreasing measure.
* **C66 Minimum distance metric is the minimum.** Fold of minima.
* **C67 Range sensor sees at most its range.** Sensor*.v: geometry over R; the ray tracer is a quantified function, assumed right about a set of obstacle points where needed (a right one for discs is constructed in SensorProofs.v). Exact description of the vertices (C67_rays), range bound without assumption (C67_in_range).
* **C68 Scenario import classifies every obstacle once.** Classification fold.
* **C69 Star-shaped obstacles.** Shape*.v: geometry over R, the random numbers are quantified functions; the vertices are truncations of points in counter-clockwise order.
* **C70 Brake lights show braking and nothing else.** Light*.v: the shared mutable table is modelled as state; invariant by induction on the history of queries; refuted.
* **C71 Timing decorator is transparent.** try/finally with exceptions as values.
* **C73 Lane follower is reproducible.** Two agents differing only in the iteration order of a set of strings; refuted for the lights, proved for the driving commands.
* **C74 Lane follower uses the controllers it is given.** Constructor; refuted for `pure_pursuit`.
* **C75 Pose distance is a metric.** `get_distance_SE2` through the closed form of the SE(2) logarithm over R; symmetry and frame independence proved, the rest expected to be refuted by concrete poses.
* **C76 Along-lane coordinate measures distance.** Speed of the centre line as a derivative over R; unit speed inside, refuted beyond the ends (a tenth).
* **C77 Fast centre point has the heading of the lane.** Closed form of the interpolated heading; refuted across the +-pi cut, proved otherwise.
* **C78 Lanes built from vertices have their borders there.** atan2 and norms over R; induction over the vertex list.
* **C79 Being inside a lane.** scipy's minimiser is a universally quantified oracle; soundness for every oracle, agreement of the two tests refuted for every exact one.
* **C80 Outline of a lane.** linspace and the two borders; list lemmas.
* **C81 Limits hold along the motion.** Differentiable trajectories over R; a mean-value argument shows no trajectory crosses a bound where the derivative has the right sign. Expected refutations: spacecraft speed, the dynamic single track model.
* **C82 Reported velocity is the rate of change of the pose.** get_velocity against the right-hand side of the dynamics; several expected refutations.
* **C83 Tyres stay within their friction circle.** Algebra over R with sqrt.
* **C85 Frequency weighted acceleration.** Discrete Fourier transforms as finite real sums (numpy.fft specified by its definition); orthogonality of sinusoids by telescoping.
* **C87 Time to collision and required deceleration metrics.** Folds of minima and maxima over lists of players and times; the filter on the centres is shown equivalent to an inequality without divisions.
* **C86 Goals are fulfilled where they say.** GoalModel.v: the three goals over the lane model; shapely's buffer and contains are quantified functions assumed to be right up to a factor rho on the radius. Pose goals: closed form of the Frobenius distance. Lane goals: solved on evenly spaced straight lanes; right for one metre spacing, refuted otherwise, because the progress in metres is used as a number of control points.
* **C84 Outlines, wheels, lights and meshes of bodies.** Body*.v: outline, wheels, lights and mesh over R; shapely's centroid is an oracle that is right on centrally symmetric rings; the buffered disc is the regular polygon with 4*quad vertices. Proved: C84_outline, C84_lights, C84_unknown_type, C84_wheels_partial, C84_steering, C84_footprint, C84_vehicle_mesh, C84_mesh_covers; refuted: width, steered wheels, short front, mesh and wheels of the differential drive robot.
* **C88 Imported vehicles follow the lane they drive on.** ScenarioModel.v: infer_lane_from_dyn_obs over an arbitrary network (lanelets at a position, merged lanes of a lanelet). The chosen lane is characterised by membership and minimality; completeness from ids that are concatenations; refutations by digits that happen to occur in an id and by angles on both sides of pi.
* **C89 Imported vehicles have the body of the obstacle.** ScenarioModel.v over the outlines of BodyModel.v; closed forms of the size; refutations of size and steering angle.
* **C90 Scenario files are found by name.** ScenarioModel.v: scenario_file over what os.walk lists; induction over the walk.
* **C91 Obstacles of a scenario with road boundaries.** ScenarioModel.v: dg_scenario, parametric in the builder of boundaries.
* **C92 The camera of an animation shows the players.** AnimModel.v: adjust_axes_limits over reals extended with infinities; containment and tightness by induction over the players.
* **C93 Animations show the whole log in real time.** AnimModel.v: frame count, frame times and frame rate over rationals, pictures from SimLog.at_interp (C30). Frames by induction over range; an invariant of the simulator (AnimRun.v) shows that logs of runs meet the hypotheses.
* **C94 Who collided.** AnimModel.v: who_collided as the set of the players of the reports; with C27 for runs.
* **C95 Drawn players are where the state is.** DrawModel.v: artists as values that frames update, footprints of all models; by induction over the frames.
* **C96 Bodies of rockets, spaceships, spacecraft and pedestrians.** DrawModel.v: outlines over the reals, the union of body and nozzles as an oracle that returns the union; flames compared with the forces of DynModel.v.
* **C97 Drawings of shapes.** DrawModel.v: add_shape as a list of patches with zorder; the colour of a pixel is that of the topmost patch around it (DrawSpec.paint).
* **C98 The drawn scene.** DrawModel.v: patches of the arena, frames of goals and extras; by induction over obstacles, missions and frames.
* **C99 Plots of logs.** DrawModel.v: a model of pyplot's figures and current figure; by induction over fields and players.
* **C100 Road boundaries.** RoadModel.v: the loops over lanelets and parts with shapely's operations as quantified oracles; RoadSpec.v says what a right difference is; by induction over gates and parts.
* **C101 Pictures of collisions.** CrashModel.v: the drawing as a list of marks, shapes as oracles; compared with CollSpec's rigid-body mechanics, and with the log of a run (AnimMain.v) by induction over its iterations.
* **C102 Direction of an impact.** CrashModel.v over the reals, atan2 of R2.v.
* **C103 Moving trajectories.** MoveModel.v on top of SeqModel.v (transform_values) and GeoModel.v; MoveSpec.v has the moved sample.
* **C104 Motion is the same everywhere.** Equivariance of Runge-Kutta steps under affine maps, by induction over stages, steps and commands (MoveProofs.v), and of each right-hand side.
* **C105 Left and right are alike.** As C104 with mirror images.
* **C106 Planner and simulator move alike.** MoveModel.v; induction over stages and steps with the invariant that all stage rates have the commanded acceleration and steering rate; uniqueness of motions from DynProofs.v.
* **C107 What lane followers report.** FollowModel.v on top of PursuitModel.v.
* **C108 The log of states cannot be changed by agents.** HeapModel.v: the simulator with objects, references and a memory; agents return the list of writes they make. Invariant: objects in the logs of states are held by no agent and by no model; proved through every function and every iteration (C108_states_log, C108_entries_stay).
* **C109 Agents move players only through their commands, and start states are never written.** HeapModel.v; invariant: the state objects of models are not among those shown; a model updated once holds an object of its own; collisions write only to such objects (C109_states_move_by_commands, C109_start_states_untouched).
* **C110 Observations are new objects at each instant; commands and observations are shared within it.** HeapModel.v; C110_shown_states by induction over the loop of pre_update; refutations C110_same_objects_refuted, C110_commands_log_refuted on concrete worlds (HeapExamples.v).
* **C111 Passing values describes the simulator exactly when agents write to nothing.** Refinement proof, function by function (HeapProofs3.v): reading the memory commutes with every step; in-place writes of collisions touch no other reader because of the invariant of C108/C109 (C111_values_suffice).
* **C112 An update integrates the equations of motion, every coordinate by its own rate, with held commands.** IntegSpec.v says coordinate by coordinate what it is to integrate a vector field with a Runge-Kutta method; Integ.src proves for any plant whose sums are coordinatewise that update computes exactly this (by induction over stages and steps, both directions), and instantiates it for the eight plants of DynModel.v and the planner of MoveModel.v.
* **C113 Bodies, wheels, nozzles and flames are the shapes they stand for.** OutlineSpec.v defines the points a convex ring encloses (all on the same side of its edges); Outline.src proves the enclosed regions of the rings given to shapely. The union itself is shapely's; the vertices of the ellipse are proved to be on it, not the region of the 64-gon.
* **C114 Model parameters are checked when they are made, and the defaults are in the stated units.** BuildModel.v: parameters as one sum type, the chain of __post_init__ checks as results; BuildSpec.v states which ranges and maxima there are; proved in both directions (C114_parameters, C114_built), with the units (C114_units) and every default (C114_vehicles, C114_others, C114_constants).
* **C115 A model stands where its state says, with the body of its geometry.** get_pose and get_footprint of each class over the objects of DataModel.v; shapely's union and disc are arbitrary functions and validity an oracle. C115_pose, C115_velocity, C115_footprint, C115_obstacle, C115_outlines, C115_vehicle_mesh, C115_whole, C115_rigid.
* **C116 Friction after a collision opposes the motion.** get_extra_collision_friction_acc by kind over the state object; C116_slows, C116_kinds and, tying it to DynModel.v, C116_dynamics.
* **C117 Ready-made models are consistent.** default_model by preset; C117_default, C117_bodies, C117_mesh, C117_static; the masses are a table in BuildSpec.v.
* **C118 Models refuse states of another class.** Pedestrians and obstacles are checked (C118_pedestrian, C118_obstacle); every other preset accepts any object (C118_refuted) and set_state checks nothing (C118_set_state_refuted).
* **C119 Free bodies leave a collision as mechanics says.** ImpactModel.v makes the models of BuildModel.v into the model operations of CollModel.v; C119_free, C119_once and C119_wall combine C40-C43 with the set/get laws of C55 on whole models.
* **C120 Vehicles leave a collision as mechanics says.** What vehicles do instead is proved exactly (C120_vehicle, C120_wall: they roll with the forward part of the reported velocity); C120_energy_partial for straight wheels, C120_head_on_partial for central frontal impacts; counterexamples with the default car: C120_sideways_refuted, C120_energy_refuted, C120_corner_refuted.
* **C121 Dynamic vehicles, pedestrians and robots leave a collision as mechanics says.** C121_dynamic_partial (momentum is conserved among dynamic vehicles and free bodies, the rotation is ignored), C121_pedestrian (forward speed is the rotation rate) and C121_diff_drive (nothing changes) say what happens; C121_spin_refuted and C121_pedestrian_refuted are the counterexamples.
* **C122 One update of a model of the package, as an object.** LoopModel.v writes update once more on objects and arrays, as the code does; C122_frame says what does not change and C122_<kind> refine it to the equations of DynModel.v on which C51-C59 and C81-C83 are proved.
* **C123 The simulator with the models of the package.** sim_world (LoopModel.v) instantiates the abstract world of SimulatorModel.v with the models of BuildModel.v, the update of C122 and the collisions of ImpactModel.v; C123_laws proves the two hypotheses that C24-C28 make about collision resolution; the others are invariants of the run (C123_same_make, C123_flag_means_report, C123_report_means_flag, C123_report_data).
* **C124 Limits on steering, nozzles and mass over a whole simulation.** Invariants of the run (run_always and lineage in LoopProofs.v) from the single-motion results of DynProofs.v: C124_held for the angles, C124_mass for the mass. A Runge-Kutta scheme with a negative weight can break the bounds, so the hypothesis exact (LoopSpec.v) is needed. Rounding is not modelled.
* **C125 Limits on speeds until the first collision.** C125_governed: an invariant that holds until the model is touched, with the calls before a state determined from the log time. After a collision the speed is what the impulse gives and may exceed the limits, which is why the statement stops there.
* **C126 Conservation over all collisions of one iteration.** C126_conserved: sums over the dictionary of models along the sequence of impacts (bumps_keep), each impact by C41 and C42 through resolved_two. The models after the motion are identified from the trace of update calls (moved, LoopSpec.v).
* **C127 The decimal clock of the simulator.** DecModel.v has Decimal addition as Python's decimal module documents it (common exponent, then ROUND_HALF_EVEN to 28 digits) and the loop of simulator.py with the three sums and differences of times as parameters. C127_nearest, C127_nearest_difference, C127_exact and C127_any_form say what that addition does, C127_infinities justifies the use of None for infinite times in SimulatorModel.v, C127_same_run is the equality of the two runs for any few_times context by an invariant (all times of the state are multiples of one power of ten and below 10^27 of them), C127_thirds the failure beyond.
* **C128 Forces, torques and fuel of the dynamic models.** The dynamics are those of DynModel.v, exact motions those of DynSpec.v (derivatives from the right, since limits make the right-hand sides jump). NewtonSpec.v has Newton's and Euler's laws without reference to the models, NewtonProofs.v sums, products and compositions of such derivatives. The budget is proved by projecting on every unit direction n and showing that n.V + ln m / C_T does not increase. The refutations exhibit exact motions in closed form.
* **C129 Which exception is raised when.** No new model: the theorems of RaiseProps.v are about the functions of the other modules, which return exceptions as values. Each gives the kind for a class of arguments; for contexts and impacts also that no other kind is possible.
* **C130 Interpolation and upsampling with Python's floats.** FloatModel.v repeats the constructor's check, at_interp, at and upsample with Flocq's IEEE 754 numbers (binary64, round to nearest even) instead of exact ones; float(Decimal) is the correctly rounded quotient. Errors are bounded with Flocq's theorems on rounding, over the reals.
* **C131 A finished simulation can be replayed from its log.** ReplayModel.v instantiates the world of the simulator model: agents are sequences asked with at_or_previous, sensors are IdObsFilter; the replay context takes the logged commands. Lockstep simulation: a relation between the two runs is preserved by every stage of an iteration; the command asked for at a time is the one logged at that time (C22), which at_or_previous returns (C03).
* **C132 Agents are asked on an exact schedule.** The simulator model (SimulatorModel.v); induction over the iterations with the invariant that the requests so far are the multiples of n below the number of iterations, using C20 (clock) and C22 (asked exactly when due). The defaults are the instance n = 2, with C21 and C26 for the end.
* **C133 What leaving parameters out means.** No new model; the general theorems on each part (C18, C19, C36-C38, C54, C59, C82, C96, C99) instantiated with the defaults, with every number written out.
* **C134 Agents and sensors only know what they are given.** The simulator model (SimulatorModel.v); invariant over the iterations that the agent and sensor objects are the result of feeding them the recorded requests (CauseProofs.v: preserved by a request, a player's update, the removal of finished players and the collision checks). The consequences combine it with C31, C32, C34 and C35 for worlds in which some agents or sensors are the package's own (CauseSpec.v). Two players given one shared agent object are outside (values, not references).
* **C135 A player nobody notices and nobody touches changes nothing for the others.** Lockstep of two runs of the simulator model (ApartProofs.v), one for the context without the key in every dictionary: the relation holds through requests, moves, removal of finished players, termination test and collision checks; the added player's own updates are stuttering steps. 'Do not react' is a bisimulation between sensor and agent pairs over the observations actually made (ApartSpec.v: cannot_tell, ignores).
* **C136 The order in which the players are listed does not matter until two of them collide.** Lockstep of the two runs (OrderProofs.v): each loop over players is split into commuting per-player updates, so that the states after a permuted loop agree on every player; without a resolved pair the nested pair loop only tests. Independence of sensors and agents from the order is a bisimulation over the observations made (OrderSpec.v); the filters and the speed behaviour are shown to satisfy it (OrderRead.v, OrderMain.v). A concrete three-player pile-up shows the restriction is needed.
* **C137 A simulation does not depend on the names of the players or on when the clock starts.** A parametricity argument: relations between the types of two worlds (MorphSpec.v), extended to dicts, observations, logs and contexts; every function of the simulator is shown to preserve them (MorphProofs.v), then the loop by induction. Names and times are instances with equality on everything else (MorphRead.v, MorphMain.v). Examples: three players with a ghost under a permutation of names, and a convoy with plans started 10 s later.
* **C138 The same simulation somewhere else in the plane.** Equivariance of the collision code over abstract shapely and model operations (PlaceProofs.v), of every model's pose, footprint, mesh, velocity and update (PlaceModels.v, from C104, C115 and C122), combined with C137_run by a relation between the two simulators (PlaceWorld.v). Rockets, whose get_velocity turns a velocity that already is in the plane, and static obstacles of finite inertia, for which the lever arm is the constant (1, 1), are counterexamples (C138_rocket_refuted, C138_obstacle_refuted).
* **C139 The time limits only cut a simulation short.** Every function of the simulator commutes with changing the limits in the context, but for the check for termination, which is monotone (LimitProofs.v); the final iteration of the short run leaves the same loggers behind although the long run goes on to check collisions; after that the logs only grow, by samples of the current time or later.
* **C140 It does not matter which of two colliding players is named first.** Proved for shapes of which neither contains the other and whose centres are on different sides of the line through the crossing points, for any shapely that treats its arguments alike up to the order of vertices. The two remaining ways to overlap are refuted with boxes.
* **C141 Left and right are alike in collisions.** Mirror images of dot products, cross products and impulses (SwapMirror.v), for any relation between shapes and their mirror images that shapely respects up to the order of vertices. Any other mirror is this one after a motion of the plane (C138).
* **C142 Collisions of two players at a time do not depend on the order in which the players are listed.** The loop over pairs is described by its effect: the touching pairs are those that touch before the loop (footprints do not change), each resolved pair gets the result of resolving its original models, the rest keep theirs (OrderProofs.v, Section Pairs). The touching pairs of the other order are the same up to order and orientation. With C140 for the resolution of dg-commons. C136_pileup_matters shows that separate collisions are necessary.
* **C143 Beyond its limits a model does not get further away from them; a collision may put it there.** The barrier lemma of C81 (stays_within) with the limits widened to the first value; the limits themselves are unchanged because the constraints only act outside. The counterexample runs the model of resolve_collision (C120) on a default car and a heavy obstacle.
