{"id": "C01", "title": "Sampled sequences have strictly increasing timestamps", "statement": "DgSampledSequence(timestamps, values) returns an object exactly when the two lists have equal length and every timestamp is strictly later than its predecessor (one number family); every other finite input raises. Hence every sequence a caller can hold, including those produced by get_subsequence, shift_timestamps, transform_values and the builder, is strictly increasing.", "quantifier": "every list of finite timestamps and every list of values, of any length; every chain of sequence operations", "why_tests_cant": "A test checks a few orderings; acceptance must be decided correctly for every list and stay true after any chain of operations.", "anchors": ["src/dg_commons/seq/sequence.py:DgSampledSequence.__post_init__", "src/dg_commons/seq/sequence.py:DgSampledSequenceBuilder"]}
{"id": "C02", "title": "at() is exact lookup", "statement": "at(t) returns the value stored at timestamp t if there is one and raises UndefinedAtTime otherwise; it never returns a neighbouring value.", "quantifier": "every valid sequence and every query time", "why_tests_cant": "Infinitely many query times; equality with a stamp has measure zero for random tests.", "anchors": ["src/dg_commons/seq/sequence.py:DgSampledSequence.at"]}
{"id": "C03", "title": "at_or_previous() is zero-order hold", "statement": "For a non-empty sequence, at_or_previous(t) returns the value of the latest sample whose timestamp is <= t, for every t from the first timestamp on, and raises UndefinedAtTime for earlier t.", "quantifier": "every valid non-empty sequence and every query time", "why_tests_cant": "Boundary behaviour (t on, just before, just after a stamp) for every length and spacing.", "anchors": ["src/dg_commons/seq/sequence.py:DgSampledSequence.at_or_previous"]}
{"id": "C04", "title": "at_interp() interpolates linearly and holds the ends", "statement": "at_interp(t) equals the first value for t before the start, the last value for t at or after the end, the stored value at every stamp, and inside an interval the point of the chord between its two end samples at t; so the result always lies between the two neighbouring samples.", "quantifier": "every valid non-empty sequence of real values and every query time", "why_tests_cant": "Must hold at every real t and every interval, including the ends and the stamps.", "anchors": ["src/dg_commons/seq/sequence.py:DgSampledSequence.at_interp"]}
{"id": "C05", "title": "get_subsequence() is the closed time window", "statement": "get_subsequence(a,b) with a<=b contains exactly the samples whose timestamp lies in [a,b], in the original order and with their values; a>b is rejected.", "quantifier": "every valid sequence and every window", "why_tests_cant": "Off-by-one at either boundary is only visible when a boundary coincides with a stamp.", "anchors": ["src/dg_commons/seq/sequence.py:DgSampledSequence.get_subsequence"]}
{"id": "C06", "title": "shift_timestamps() is a pure time translation", "statement": "Shifting by d moves every timestamp by d and no value; looking up t+d in the shifted sequence (exact, previous, interpolated, window) gives what looking up t in the original gave; shifting by d then -d is the identity.", "quantifier": "every valid sequence, shift and query time", "why_tests_cant": "Relational property between two sequences for all lookups.", "anchors": ["src/dg_commons/seq/sequence.py:DgSampledSequence.shift_timestamps"]}
{"id": "C07", "title": "transform_values() keeps exactly the defined images", "statement": "transform_values(f) has, for each sample with f(v) not None, the sample (t,f(v)), in order, and nothing else; for total f the timestamps are unchanged and two successive transforms equal the composed one.", "quantifier": "every valid sequence and every function f", "why_tests_cant": "Universally quantified over functions.", "anchors": ["src/dg_commons/seq/sequence.py:DgSampledSequence.transform_values"]}
{"id": "C08", "title": "Sequence builder accepts only forward time and snapshots", "statement": "Starting from an empty builder, an add(t,v) succeeds iff t is later than every sample already accepted; as_sequence() never fails and returns exactly the accepted samples in order; a sequence taken from the builder is not changed by later adds.", "quantifier": "every finite history of add and as_sequence calls", "why_tests_cant": "Histories are unbounded; isolation is about every later operation.", "anchors": ["src/dg_commons/seq/sequence.py:DgSampledSequenceBuilder.add", "src/dg_commons/seq/sequence.py:DgSampledSequenceBuilder.as_sequence"]}
{"id": "C09", "title": "iterate_with_dt() visits every adjacent pair once", "statement": "For a sequence created through a subscripted class, iterate_with_dt yields one record per adjacent pair of samples in order with dt=t1-t0>0; the dts sum to get_end()-get_start(); sequences with fewer than two samples yield nothing.", "quantifier": "every valid sequence", "why_tests_cant": "Telescoping holds for every length.", "anchors": ["src/dg_commons/seq/sequence.py:iterate_with_dt"]}
{"id": "C10", "title": "seq_accumulate / seq_integrate are running sum and running trapezoid integral", "statement": "seq_accumulate has at each timestamp the sum of all values up to it. seq_integrate of a sequence with n>=2 samples has n-1 samples, stamped with the 2nd..last timestamp, whose k-th value is the exact trapezoid area from the first sample up to there; it is additive in the values, and on a constant signal c it is c*(t-t_start).", "quantifier": "every valid sequence of numbers", "why_tests_cant": "Sum identities over unbounded lengths.", "anchors": ["src/dg_commons/seq/seq_op.py:seq_integrate", "src/dg_commons/seq/seq_op.py:seq_accumulate"]}
{"id": "C11", "title": "seq_differentiate is the exact chord slope and inverts the sum", "statement": "seq_differentiate has one sample per adjacent pair, stamped strictly inside the interval (the midpoint), equal to the slope; multiplying by the dts and summing gives last value minus first value; differentiating a straight line gives its slope everywhere.", "quantifier": "every valid sequence of numbers", "why_tests_cant": "Fundamental-theorem identity for every length.", "anchors": ["src/dg_commons/seq/seq_op.py:seq_differentiate"]}
{"id": "C12", "title": "find_crossings returns exactly the level crossings", "statement": "For a sequence whose values never equal the level, find_crossings returns one time per adjacent pair lying on opposite sides of the level, in increasing order, each strictly inside its interval, and linear interpolation of the sequence at that time equals the level; no other times are returned.", "quantifier": "every valid numeric sequence and level", "why_tests_cant": "Soundness and completeness over all signals.", "anchors": ["src/dg_commons/seq/seq_op.py:find_crossings"]}
{"id": "C13", "title": "iterate_dict_combinations is the Cartesian product", "statement": "iterate_dict_combinations(m) yields every assignment that picks for each key one of its choices, each exactly once when choices are distinct, and nothing else; the count is the product of the choice counts; an empty mapping yields one empty assignment and a key without choices yields none.", "quantifier": "every finite mapping from keys to choice lists", "why_tests_cant": "Combinatorial in the size of the mapping.", "anchors": ["src/dg_commons/utils_toolz.py:iterate_dict_combinations"]}
{"id": "C14", "title": "Trajectory concatenation", "statement": "a.merge(b) for connectable trajectories (same speed and steering at the seam) contains all samples of a followed by all samples of b but the duplicated first one, at unchanged times, is again a valid trajectory, starts at a's start and ends at b's end; non-connectable trajectories are rejected; merging is associative whenever both groupings are accepted; no sample of b that is not a duplicate is lost.", "quantifier": "every pair/triple of valid trajectories and tolerance", "why_tests_cant": "Seam handling for every length and gap.", "anchors": ["src/dg_commons/planning/trajectory.py:Trajectory.is_connectable", "src/dg_commons/planning/trajectory.py:Trajectory.merge", "src/dg_commons/planning/trajectory.py:Trajectory.merge_unsafe"]}
{"id": "C15", "title": "upsample(n) refines without changing samples", "statement": "upsample(n) of a trajectory with m>=1 samples has (m-1)(n+1)+1 samples, contains every original sample unchanged, keeps the start and end times, is strictly increasing, and every inserted value is the linear interpolation of its neighbours; upsample(0) is the identity.", "quantifier": "every valid trajectory and every n>=0", "why_tests_cant": "Count and interpolation for every m and n.", "anchors": ["src/dg_commons/planning/trajectory.py:Trajectory.upsample"]}
{"id": "C16", "title": "Commands plan of a trajectory", "statement": "commands_plan_from_trajectory returns, for a trajectory with n>=2 samples, n-1 commands whose acceleration and steering rate are the finite differences of speed and steering angle.", "quantifier": "every valid trajectory", "why_tests_cant": "Must hold for every trajectory length >= 2.", "anchors": ["src/dg_commons/planning/trajectory.py:commands_plan_from_trajectory"]}
{"id": "C17", "title": "Trajectory graph generation bookkeeping", "statement": "After add_edge(u,v) the generation of v is the generation of u plus one and nodes already present keep the generation they were first given; get_all_trajectories and get_all_transitions return one entry per possible root-to-leaf route and every entry follows edges; get_transition lays the stored transitions end to end; commands_on_trajectory returns the commands of the given trajectory's edges.", "quantifier": "every history of add_edge calls", "why_tests_cant": "Histories of unbounded length.", "anchors": ["src/dg_commons/planning/trajectory.py:TrajectoryGraph"]}
{"id": "C18", "title": "Motion primitives respect grid and input limits", "statement": "Every primitive produced by MotionPrimitivesGenerator.generate has the timestamps 0,dt,...,n_steps*dt, starts in the requested initial state, applies one constant command whose acceleration and steering rate are inside the vehicle's limits; a primitive is produced for every start/end pair meeting the limits.", "quantifier": "every parameter set, every vehicle dynamics, every grid", "why_tests_cant": "Grid sizes are arbitrary.", "anchors": ["src/dg_commons/planning/motion_primitives.py:MotionPrimitivesGenerator"]}
{"id": "C19", "title": "Commands sampler enumerates the command grid", "statement": "CommandsSampler.generate returns one one-step trajectory per (acceleration, steering rate) grid pair, all starting at the given state, and every sampled command lies inside the parameter ranges, which lie inside the vehicle limits. Building the sampler from any vehicle's parameters succeeds.", "quantifier": "every parameter set and vehicle", "why_tests_cant": "Grid sizes and vehicle parameters are arbitrary.", "anchors": ["src/dg_commons/planning/commands_sampler.py:CommandsSampler"]}
{"id": "C20", "title": "Simulation time is the exact dt grid and each active player is logged once per tick", "statement": "In every run, after k steps the simulation time is k*dt, and the log of a player contains its state at 0,dt,...,(k-1)*dt for every step it was active, once per step, equal to the state its model had at the start of that step.", "quantifier": "every context: players, models, agents, goals, parameters with dt>0, any number of steps", "why_tests_cant": "Agents, models and goals are arbitrary code; unbounded number of steps.", "anchors": ["src/dg_commons/sim/simulator.py:Simulator.run", "src/dg_commons/sim/simulator.py:Simulator.update", "src/dg_commons/sim/simulator.py:Simulator.post_update"]}
{"id": "C21", "title": "Every run terminates by the time limit", "statement": "Simulator.run returns after at most max_sim_time/dt+2 steps whatever the agents, models, goals and collisions do.", "quantifier": "every context with dt>0 and every terminating agent/model code", "why_tests_cant": "Termination is a statement about all executions.", "anchors": ["src/dg_commons/sim/simulator.py:Simulator._maybe_terminate", "src/dg_commons/sim/simulator.py:Simulator.run"]}
{"id": "C22", "title": "Commands are requested at the commands period and held in between", "statement": "All active players are asked for commands at time 0 and then at the first tick at least dt_commands after the previous request; two requests are never closer than dt_commands; between requests each model is stepped with the last command its agent returned, and the command log has exactly the requested times.", "quantifier": "every context and every history", "why_tests_cant": "Interaction of two periods with arbitrary ratio and players leaving.", "anchors": ["src/dg_commons/sim/simulator.py:Simulator._need_to_update", "src/dg_commons/sim/simulator.py:Simulator.update"]}
{"id": "C23", "title": "Finished players leave for good", "statement": "A player is removed at the first tick its goal is fulfilled; its final state is logged at that time; from then on its agent is never asked, its model never stepped, it appears in no observation and in no later collision check; players without a mission are never removed.", "quantifier": "every context and every history", "why_tests_cant": "Must hold for every later step of every run.", "anchors": ["src/dg_commons/sim/simulator.py:Simulator._remove_finished_players"]}
{"id": "C24", "title": "Logging never fails and every player gets a log", "statement": "No sequence of simulator steps makes a player's log reject a sample: state, command and extra samples of each player are always added with strictly increasing times; when run returns there is a log for every model in the context.", "quantifier": "every context and every history", "why_tests_cant": "A violation would be an exception in the middle of some long run.", "anchors": ["src/dg_commons/sim/simulator.py:Simulator.update", "src/dg_commons/sim/simulator_structures.py:PlayerLogger"]}
{"id": "C25", "title": "All agents observe the same instant", "statement": "At a command tick every agent receives observations stamped with the current time that contain, for exactly the active players, the state each had before anybody moved in this step; all players asked at one time are shown the same full observation, whatever their order, and later model updates do not change observations already delivered.", "quantifier": "every context, tick and player order", "why_tests_cant": "Order independence and isolation for all agents.", "anchors": ["src/dg_commons/sim/simulator.py:Simulator.pre_update", "src/dg_commons/sim/simulator.py:Simulator.update"]}
{"id": "C26", "title": "A run stops only for a stated reason", "statement": "When run returns, the time exceeds the limit, or exceeds first collision time plus sim_time_after_collision, or no active player remains, or there are missions and no player with a mission remains; and as long as none of these holds the run goes on.", "quantifier": "every context and every history", "why_tests_cant": "Both directions over all executions.", "anchors": ["src/dg_commons/sim/simulator.py:Simulator._maybe_terminate"]}
{"id": "C27", "title": "Player-player collisions are recorded for every touching pair at every checked tick", "statement": "At each tick where collisions are checked, exactly the unordered pairs of distinct active players whose footprints intersect are resolved, each pair once; reports are appended in time order; first_collision_ts is the earliest report time.", "quantifier": "every context and every history", "why_tests_cant": "Pairs grow quadratically; ordering over whole history.", "anchors": ["src/dg_commons/sim/simulator.py:Simulator._check_collisions_among_players", "src/dg_commons/sim/collision_structures.py:CollisionReport"]}
{"id": "C28", "title": "Environment collisions", "statement": "At each iteration that does not end the run every active player is resolved against exactly the static obstacles the spatial index returns for its footprint, and the resulting reports (an empty one naming the player if the geometry fails) are appended to the context, except for moving obstacles; players that left are not checked.", "quantifier": "every context and every history", "why_tests_cant": "Arbitrary obstacle sets.", "anchors": ["src/dg_commons/sim/simulator.py:Simulator._check_collisions_with_environment"]}
{"id": "C29", "title": "A simulator object can be reused", "statement": "Running the same Simulator object on a second, fresh context gives the same result as a new Simulator object: commands are requested at time 0 and no data of the first run is used.", "quantifier": "every pair of contexts", "why_tests_cant": "Relational property over two executions.", "anchors": ["src/dg_commons/sim/simulator.py:Simulator"]}
{"id": "C30", "title": "Simulation log queries", "statement": "SimLog.get_init_time is the least and get_last_time the greatest logged time over players; at_interp(t) returns an entry for every logged player whose state interpolates that player's states and whose command is the last one issued at or before t.", "quantifier": "every log and query time", "why_tests_cant": "Any number of players with different active periods.", "anchors": ["src/dg_commons/sim/simulator_structures.py:SimLog", "src/dg_commons/sim/simulator_structures.py:PlayerLog.at_interp"]}
{"id": "C31", "title": "Field-of-view filter only removes", "statement": "FovObsFilter.sense returns observations with the same time, containing the observer itself, containing only players present in the input with unchanged states, and containing another player exactly when it intersects the region visible past the obstacles of the scenario at hand and the other players (the region is repaired first when it is invalid); it fails when the observer is not observed.", "quantifier": "every observation, observer and visibility oracle", "why_tests_cant": "Arbitrary visibility geometry.", "anchors": ["src/dg_commons/sim/sim_perception.py:FovObsFilter"]}
{"id": "C32", "title": "Delay filter never shows data older than the latency and is exact when sampled", "statement": "DelayedObsFilter with latency L>=0 fed with increasing times returns an observation whose data was recorded at s with now-L<=s<=now; once time L has passed and a sample exactly L old was fed, it returns exactly that sample; the stamped time of what is returned is recorded time + L; outputs are in recording order.", "quantifier": "every latency and every increasing feeding history", "why_tests_cant": "Queue state over unbounded histories.", "anchors": ["src/dg_commons/sim/sim_perception.py:DelayedObsFilter"]}
{"id": "C33", "title": "Ghost filter hides exactly the configured players", "statement": "GhostObsFilter removes exactly the configured ghost player, and only when it is further than the threshold from the observer; everybody else is kept unchanged; with the documented threshold 0 the ghost is always removed.", "quantifier": "every observation and configuration", "why_tests_cant": "All distances including 0.", "anchors": ["src/dg_commons/sim/sim_perception.py:GhostObsFilter"]}
{"id": "C34", "title": "Open-loop agent plays its plan", "statement": "NPAgent returns at each time the latest planned command not later than that time and fails before the plan starts; PolicyAgent applies the policy to the agent's own state.", "quantifier": "every plan and query time", "why_tests_cant": "All times and plans.", "anchors": ["src/dg_commons/sim/agents/agent.py:NPAgent", "src/dg_commons/sim/agents/agent.py:PolicyAgent"]}
{"id": "C35", "title": "Lane follower brakes for good after an emergency", "statement": "Once an emergency has been detected the lane-following agent's speed reference is 0 at every later tick, whatever is observed later; before that it is the speed behaviour's reference; every command issued is inside the vehicle's acceleration and steering-rate limits.", "quantifier": "every history of observations", "why_tests_cant": "Latching is a statement about all later ticks.", "anchors": ["src/dg_commons/sim/agents/lane_follower.py:LFAgent"]}
{"id": "C36", "title": "PID output and integral always stay in their limits", "statement": "For every history of references, measurements and times, get_control returns a value inside output_limits, the accumulated integral error used for the output stays inside antiwindup, the reference after an update is inside setpoint_minmax, repeated calls at the same time use no derivative or integration, and with gains zero except kp the output is the clipped proportional term.", "quantifier": "every parameter set accepted by the constructor and every history of calls", "why_tests_cant": "Unbounded histories; saturation must hold for every one.", "anchors": ["src/dg_commons/controllers/pid.py:PID"]}
{"id": "C37", "title": "Speed behaviour never asks to go backwards or above the cap", "statement": "The speed reference computed by SpeedBehavior is 0 in an emergency, otherwise at most the nominal speed and at least 0, and at most each single behaviour's reference.", "quantifier": "every set of observed agents and parameters", "why_tests_cant": "Arbitrary numbers of agents.", "anchors": ["src/dg_commons/controllers/speed.py:SpeedBehavior"]}
{"id": "C38", "title": "Pure pursuit lookahead and steering are well defined", "statement": "The lookahead distance is always between the configured minimum and maximum; steering is zero when the goal point is straight ahead and has the sign of the lateral offset; with no path or pose the controller raises.", "quantifier": "every speed, pose, path and parameters", "why_tests_cant": "Continuous domain.", "anchors": ["src/dg_commons/controllers/pure_pursuit.py:PurePursuit"]}
{"id": "C39", "title": "Steering controller", "statement": "The steering-rate command produced by the steering controller is inside the vehicle's steering-rate limits for every history.", "quantifier": "every vehicle and history", "why_tests_cant": "Unbounded histories.", "anchors": ["src/dg_commons/controllers/steer.py:SteerController"]}
{"id": "C40", "title": "Impulse obeys the restitution law", "statement": "After resolving a collision the relative normal velocity of the contact points is minus the smaller restitution coefficient times the relative normal velocity before, for finite masses and for an infinitely heavy environment.", "quantifier": "all masses, inertias, lever arms, unit normals and velocities", "why_tests_cant": "Real-valued identity.", "anchors": ["src/dg_commons/sim/collision_utils.py:compute_impulse_response", "src/dg_commons/sim/collision_utils.py:velocity_after_collision", "src/dg_commons/sim/collision_utils.py:rot_velocity_after_collision"]}
{"id": "C41", "title": "Collisions conserve momentum", "statement": "The total linear momentum and the total angular momentum about any point of two colliding bodies is the same before and after; the impulse acts only along the normal.", "quantifier": "all bodies, velocities, impact points", "why_tests_cant": "Real-valued identity.", "anchors": ["src/dg_commons/sim/collision_utils.py:velocity_after_collision", "src/dg_commons/sim/collision_utils.py:rot_velocity_after_collision"]}
{"id": "C42", "title": "Collisions never create kinetic energy", "statement": "For restitution in [0,1] the total kinetic energy (translational and rotational) after a collision is at most that before, equal when restitution is 1; the energy delta in the report has the corresponding sign in total.", "quantifier": "all bodies, velocities and restitution coefficients in [0,1]", "why_tests_cant": "Inequality over a continuous domain.", "anchors": ["src/dg_commons/sim/collision_utils.py:kinetic_energy", "src/dg_commons/sim/collision_utils.py:compute_impulse_response"]}
{"id": "C43", "title": "Separating bodies are left alone", "statement": "If the contact points already move apart, resolving returns no report and changes neither velocities nor collision flags; otherwise both models are flagged as collided and get the computed velocities.", "quantifier": "all pairs of models", "why_tests_cant": "All relative velocities.", "anchors": ["src/dg_commons/sim/collision.py:resolve_collision", "src/dg_commons/sim/collision.py:resolve_collision_with_environment"]}
{"id": "C44", "title": "Impact normal is a unit vector pointing from the first to the second body", "statement": "compute_impact_geometry returns a unit normal that makes a non-obtuse angle with the vector from the first body's centre to the impact point.", "quantifier": "all footprints with a proper intersection", "why_tests_cant": "All geometries.", "anchors": ["src/dg_commons/sim/collision_utils.py:compute_impact_geometry"]}
{"id": "C45", "title": "Fault attribution", "statement": "In a collision between players, a player is declared at fault exactly when its pose is illegal (against the direction of the lane or outside of it) for every lane at the impact point; without a scenario nobody is at fault, and where the map has no lane nobody is declared at fault.", "quantifier": "all maps, poses and impact points", "why_tests_cant": "All lane configurations.", "anchors": ["src/dg_commons/sim/collision_utils.py:check_who_is_at_fault"]}
{"id": "C46", "title": "Combining collision reports is a monoid operation on time-ordered reports", "statement": "Combining reports of the same players keeps the first impact's pre-collision data and the last impact's post-collision data, adds the energy losses, and is associative; reports over different players are rejected.", "quantifier": "all report sequences", "why_tests_cant": "Associativity over all triples and orders.", "anchors": ["src/dg_commons/sim/collision_structures.py:combine_collision_reports"]}
{"id": "C47", "title": "Lane parametrisations are inverse of each other", "statement": "along_lane_from_beta and beta_from_along_lane are inverse on the whole line (up to the stated snapping tolerance), monotone, map 0 to 0 and the last control point to the lane length.", "quantifier": "every lane with positive segment lengths and every parameter", "why_tests_cant": "Continuous domain, arbitrary number of control points.", "anchors": ["src/dg_commons/maps/lanes.py:DgLanelet.along_lane_from_beta", "src/dg_commons/maps/lanes.py:DgLanelet.beta_from_along_lane"]}
{"id": "C48", "title": "Lane length is the sum of segment lengths", "statement": "get_lane_length equals the sum of lane_lengths which has one non-negative entry per segment; it is invariant under repeated (cached) queries.", "quantifier": "every lane", "why_tests_cant": "Arbitrary control points.", "anchors": ["src/dg_commons/maps/lanes.py:DgLanelet.get_lane_length", "src/dg_commons/maps/lanes.py:DgLanelet.get_lane_lengths"]}
{"id": "C49", "title": "Every pose is classified along the lane exactly once", "statement": "lane_pose classifies every position as exactly one of before, inside or after along the lane, and exactly one of left/inside/right laterally, consistently with the along-lane and lateral coordinates.", "quantifier": "every lane and pose", "why_tests_cant": "Boundaries included.", "anchors": ["src/dg_commons/maps/lanes.py:DgLanelet.lane_pose"]}
{"id": "C50", "title": "Centre line and radius pass through control points", "statement": "center_point at an integer parameter is the control point; in between it follows the constant-twist arc joining the two neighbouring control points at constant speed, whose length is the segment length; the fast variant is on the straight segment between them; radius interpolates between neighbouring radii and is constant outside.", "quantifier": "every lane and parameter", "why_tests_cant": "Continuous domain.", "anchors": ["src/dg_commons/maps/lanes.py:DgLanelet.center_point", "src/dg_commons/maps/lanes.py:DgLanelet.radius", "src/dg_commons/maps/lanes.py:DgLanelet.center_point_fast_SE2Transform"]}
{"id": "C51", "title": "Acceleration limiting keeps speed in its limits", "statement": "The acceleration constraint returns a value within acceleration limits, never increases speed above the maximum nor decreases it below the minimum, and passes admissible commands through unchanged.", "quantifier": "all speeds, commands and limits", "why_tests_cant": "Continuous domain and boundaries.", "anchors": ["src/dg_commons/sim/models/model_utils.py:apply_speed_constraint", "src/dg_commons/sim/models/model_utils.py:apply_acceleration_limits"]}
{"id": "C52", "title": "Steering and rotation constraints", "statement": "The steering-rate constraint never pushes a saturated steering angle further out, always returns a rate within the rate limits, and is the identity on admissible inputs; same for pedestrian rotation.", "quantifier": "all angles, rates and limits", "why_tests_cant": "Continuous domain and boundaries.", "anchors": ["src/dg_commons/sim/models/vehicle_utils.py:steering_constraint", "src/dg_commons/sim/models/pedestrian_utils.py:rotation_constraint"]}
{"id": "C53", "title": "States and commands survive the array round trip", "statement": "X.from_array(x.as_ndarray()) equals x for every state and command type, arrays of the wrong length are rejected.", "quantifier": "all states and commands of every model type", "why_tests_cant": "All values and all types.", "anchors": ["src/dg_commons/sim/models/vehicle.py:VehicleState", "src/dg_commons/sim/models/vehicle_dynamic.py:VehicleStateDyn", "src/dg_commons/sim/models/spacecraft.py:SpacecraftCommands", "src/dg_commons/sim/models/diff_drive.py:DiffDriveCommands", "src/dg_commons/sim/models/pedestrian.py:PedestrianState", "src/dg_commons/sim/models/rocket.py:RocketState", "src/dg_commons/sim/models/spaceship.py:SpaceshipState", "src/dg_commons/sim/models/obstacles_dyn.py:DynObstacleState"]}
{"id": "C54", "title": "States and commands form a vector space", "statement": "Addition is commutative and associative componentwise, x-x is zero, scalar multiplication distributes and s*x equals x*s, for every component of every state and command type.", "quantifier": "all states, commands and scalars", "why_tests_cant": "Algebraic laws.", "anchors": ["src/dg_commons/sim/models/vehicle.py:VehicleState", "src/dg_commons/sim/models/vehicle_dynamic.py:VehicleStateDyn", "src/dg_commons/sim/models/spacecraft.py:SpacecraftState"]}
{"id": "C55", "title": "Setting a velocity and reading it back", "statement": "For every model, set_velocity(v,w) followed by get_velocity in the same frame returns (v,w), and the other state components are unchanged.", "quantifier": "all models, states and velocities", "why_tests_cant": "All angles and velocities.", "anchors": ["src/dg_commons/sim/models/vehicle.py:VehicleModel.set_velocity", "src/dg_commons/sim/models/vehicle_dynamic.py:VehicleModelDyn.set_velocity", "src/dg_commons/sim/models/pedestrian.py:PedestrianModel.set_velocity", "src/dg_commons/sim/models/spacecraft.py:SpacecraftModel.set_velocity", "src/dg_commons/sim/models/obstacles_dyn.py:DynObstacleModel.set_velocity", "src/dg_commons/sim/models/diff_drive.py:DiffDriveModel.set_velocity"]}
{"id": "C56", "title": "Collided models ignore commands", "statement": "After has_collided is set the evolution of models that stop obeying does not depend on commands.", "quantifier": "all command histories after a collision", "why_tests_cant": "Relational over command histories.", "anchors": ["src/dg_commons/sim/models/vehicle.py:VehicleModel.update", "src/dg_commons/sim/models/pedestrian.py:PedestrianModel.update"]}
{"id": "C57", "title": "Bicycle successor keeps speed and steering in limits", "statement": "For every state and command and every step length, the successor of the discrete bicycle dynamics has speed inside vx limits and |steering| <= delta_max; heading and position change according to clipped inputs.", "quantifier": "all states, commands and dt", "why_tests_cant": "Continuous domain.", "anchors": ["src/dg_commons/dynamics/bicycle_dynamic.py:BicycleDynamics.successor"]}
{"id": "C58", "title": "Rockets and spaceships never gain mass", "statement": "Along the dynamics the mass never increases, and thrust is inside its limits.", "quantifier": "all states and commands", "why_tests_cant": "Continuous domain.", "anchors": ["src/dg_commons/sim/models/rocket.py:RocketModel", "src/dg_commons/sim/models/spaceship.py:SpaceshipModel"]}
{"id": "C59", "title": "Tyre force is bounded", "statement": "The Pacejka force never exceeds the peak factor D in absolute value and is zero at zero slip and odd; the default 4-parameter tyre is a 4-parameter tyre.", "quantifier": "all slips and parameters", "why_tests_cant": "Continuous domain.", "anchors": ["src/dg_commons/sim/models/tires.py:Pacejka.evaluate"]}
{"id": "C60", "title": "Planar poses behave as a group", "statement": "as_SE2/from_SE2 round trip (angle modulo 2 pi), relative_pose(base,pose) satisfies base*rel=pose, SE2_apply_T2 is an isometry and compatible with composition, distances are symmetric.", "quantifier": "all poses and points", "why_tests_cant": "Real-valued identities.", "anchors": ["src/dg_commons/geo.py:SE2Transform", "src/dg_commons/geo.py:relative_pose", "src/dg_commons/geo.py:SE2_apply_T2", "src/dg_commons/geo.py:SE2_interpolate"]}
{"id": "C61", "title": "Geometry conversions keep all vertices", "statement": "Converting a polygon drops exactly the duplicated closing vertex and keeps all others in order; converting a line string with n points gives n-1 segment shapes covering consecutive pairs.", "quantifier": "all vertex lists", "why_tests_cant": "Arbitrary length.", "anchors": ["src/dg_commons/geo.py:sPolygon2crPolygon", "src/dg_commons/geo.py:sLine2crPolygon", "src/dg_commons/geo.py:shapely2crPolygons"]}
{"id": "C62", "title": "Comfort metrics", "statement": "get_max_jerk is the maximum absolute slope of the acceleration commands: an upper bound on every slope and attained by one of them.", "quantifier": "all command sequences with at least two samples", "why_tests_cant": "Arbitrary length.", "anchors": ["src/dg_commons/eval/comfort.py:get_max_jerk"]}
{"id": "C63", "title": "Distance traveled", "statement": "distance_traveled is the sum of distances between consecutive positions; it is at least the straight-line displacement, zero for a resting player, additive over splitting the log at a sample.", "quantifier": "all state sequences", "why_tests_cant": "Triangle inequality over arbitrary length.", "anchors": ["src/dg_commons/eval/efficiency.py:distance_traveled"]}
{"id": "C64", "title": "Goal-lane reachability query terminates", "statement": "desired_lane_reached returns for every lane network; time_goal_lane_reached is the first logged time at which the goal lane is reached.", "quantifier": "all lane networks, goals and positions", "why_tests_cant": "Termination over all graphs.", "anchors": ["src/dg_commons/eval/efficiency.py:desired_lane_reached", "src/dg_commons/eval/efficiency.py:time_goal_lane_reached"]}
{"id": "C65", "title": "Time to collision is the first colliding prediction", "statement": "_get_ttc returns the least multiple of its step at which the straight-line predictions intersect, and infinity when none up to the horizon does; it always terminates.", "quantifier": "all states and footprints", "why_tests_cant": "All motions.", "anchors": ["src/dg_commons/eval/safety.py:_get_ttc"]}
{"id": "C66", "title": "Minimum distance metric is the minimum", "statement": "get_min_dist returns the least distance over all times in range and all other active agents together with an agent and time attaining it.", "quantifier": "all logs", "why_tests_cant": "Arbitrary number of players and times.", "anchors": ["src/dg_commons/eval/safety.py:get_min_dist", "src/dg_commons/eval/safety.py:get_min_dist_at_t"]}
{"id": "C67", "title": "Range sensor sees at most its range", "statement": "Every vertex of the field of view polygon lies within the sensor range of the sensor; each ray stops at the closest hit.", "quantifier": "all obstacles, poses and sensor parameters", "why_tests_cant": "Continuous domain.", "anchors": ["src/dg_commons/perception/sensor.py:VisRangeSensor"]}
{"id": "C68", "title": "Scenario import classifies every obstacle once", "statement": "Every dynamic obstacle of the scenario becomes exactly one of: a static obstacle, a player with model and agent under the same unique name, or is skipped as documented; players and models have the same keys.", "quantifier": "all scenarios", "why_tests_cant": "Arbitrary obstacle lists.", "anchors": ["src/dg_commons/sim/scenarios/factory.py:get_scenario_commonroad_replica"]}
{"id": "C69", "title": "Star-shaped obstacles", "statement": "create_random_starshaped_polygon / star polygon generators return polygons whose vertices lie between the inner and outer radius of the centre in increasing angle, with the requested number of vertices.", "quantifier": "all centres, radii and vertex counts", "why_tests_cant": "Continuous domain.", "anchors": ["src/dg_commons/maps/shapes_generator.py"]}
{"id": "C70", "title": "Brake lights show braking and nothing else", "statement": "The light colours returned for a command and time depend only on that command and time: the brighter rear lights are shown exactly when the acceleration is negative.", "quantifier": "every history of light queries", "why_tests_cant": "A history property: an earlier query must not affect a later one.", "anchors": ["src/dg_commons/sim/simulator_animation.py:lights_colors_from_lights_cmd", "src/dg_commons/sim/models/vehicle_ligths.py:get_phased_lights"]}
{"id": "C71", "title": "Timing decorator is transparent", "statement": "A function wrapped by time_function returns the same value or raises the same exception as the unwrapped function for all arguments.", "quantifier": "all functions and arguments", "why_tests_cant": "Universally quantified over functions.", "anchors": ["src/dg_commons/time.py:time_function"]}
{"id": "C72", "title": "Mapping helpers keep keys and values", "statement": "fkeyfilter keeps exactly the entries whose key satisfies the predicate, valmap and fvalmap apply the function to every value and keep the keys, fd and fs build a mapping and a set with exactly the given entries.", "quantifier": "all mappings, predicates and functions", "why_tests_cant": "Universally quantified over functions and mappings.", "anchors": ["src/dg_commons/utils_toolz.py:fkeyfilter", "src/dg_commons/utils_toolz.py:valmap", "src/dg_commons/utils_toolz.py:fvalmap", "src/dg_commons/utils_toolz.py:fd"]}
{"id": "C73", "title": "Lane follower is reproducible", "statement": "Two lane-following agents built from the same arguments and asked with the same observations answer with the same commands, in the same process or in another one.", "quantifier": "all observation histories and interpreter runs", "why_tests_cant": "Relates two executions with different hash seeds.", "anchors": ["src/dg_commons/sim/agents/lane_follower.py:LFAgent"]}
{"id": "C74", "title": "Lane follower uses the controllers it is given", "statement": "A speed behaviour or pure pursuit controller passed to the constructor is the one the agent uses.", "quantifier": "all controllers passed in", "why_tests_cant": "All arguments.", "anchors": ["src/dg_commons/sim/agents/lane_follower.py:LFAgent"]}
{"id": "C75", "title": "Pose distance is a metric", "statement": "get_distance_SE2 is symmetric, non-negative, independent of the frame in which both poses are expressed, zero exactly for equal poses and satisfies the triangle inequality.", "quantifier": "all pairs and triples of poses", "why_tests_cant": "Continuous domain, wrap-around of angles.", "anchors": ["src/dg_commons/geo.py:get_distance_SE2"]}
{"id": "C76", "title": "Along-lane coordinate measures distance", "statement": "Increasing the along-lane coordinate by s moves the corresponding centre point by a path of length s, inside the lane and beyond its ends.", "quantifier": "every lane and coordinate", "why_tests_cant": "Continuous domain.", "anchors": ["src/dg_commons/maps/lanes.py:DgLanelet.beta_from_along_lane", "src/dg_commons/maps/lanes.py:DgLanelet.center_point"]}
{"id": "C77", "title": "Fast centre point has the heading of the lane", "statement": "center_point_fast_SE2Transform has the heading of center_point at the same parameter.", "quantifier": "every lane and parameter", "why_tests_cant": "Continuous domain, wrap-around of angles.", "anchors": ["src/dg_commons/maps/lanes.py:DgLanelet.center_point_fast_SE2Transform", "src/dg_commons/maps/lanes.py:DgLanelet.center_point"]}
{"id": "C78", "title": "Lanes built from vertices have their borders there", "statement": "from_vertices with centre vertices half-way between left and right ones gives one control point per centre vertex whose left and right border points are the given vertices; missing border vertices are an IndexError.", "quantifier": "all vertex lists", "why_tests_cant": "Arbitrary number of vertices.", "anchors": ["src/dg_commons/maps/lanes.py:DgLanelet.from_vertices"]}
{"id": "C79", "title": "Being inside a lane", "statement": "is_inside_from_T2value answers true only for positions within the half width of a centre point of the lane, and agrees with the inside flag of the lane pose of that position.", "quantifier": "every lane, position and minimiser", "why_tests_cant": "Continuous domain, boundaries included.", "anchors": ["src/dg_commons/maps/lanes.py:DgLanelet.is_inside_from_T2value", "src/dg_commons/maps/lanes.py:DgLanelet.lane_pose_from_SE2_generic"]}
{"id": "C80", "title": "Outline of a lane", "statement": "lane_profile runs along the right border from start to end and back along the left border, with the stated number of equally spaced points, each at the half width from the centre line.", "quantifier": "every lane with non-negative radii", "why_tests_cant": "Arbitrary number of segments and points.", "anchors": ["src/dg_commons/maps/lanes.py:DgLanelet.lane_profile"]}
{"id": "C81", "title": "Limits hold along the motion", "statement": "While a vehicle, pedestrian, obstacle or spacecraft moves under constant commands, the quantity its parameters bound (speed, steering angle, rotation rate, nozzle angle) never leaves its bounds if it starts inside them, whatever commands are given.", "quantifier": "every exact motion (differentiable trajectory solving the model's equations), every constant command, every set of limits containing zero", "why_tests_cant": "A continuum of states and commands; tests sample finitely many integration steps.", "anchors": ["src/dg_commons/sim/models/vehicle.py:VehicleModel.dynamics", "src/dg_commons/sim/models/pedestrian.py:PedestrianModel.dynamics", "src/dg_commons/sim/models/dynamic_obstacle.py:DynObstacleModel.dynamics", "src/dg_commons/sim/models/spacecraft.py:SpacecraftModel.dynamics", "src/dg_commons/sim/models/rocket.py:RocketModel.dynamics", "src/dg_commons/sim/models/spaceship.py:SpaceshipModel.dynamics"]}
{"id": "C82", "title": "Reported velocity is the rate of change of the pose", "statement": "The velocity reported by get_velocity (after turning it into the fixed frame when asked for the model frame) is the time derivative of the pose reported by get_pose.", "quantifier": "every model, state and command", "why_tests_cant": "Must hold at every state of a continuum.", "anchors": ["src/dg_commons/sim/models/vehicle.py:VehicleModel.get_velocity", "src/dg_commons/sim/models/vehicle_dynamic.py:VehicleModelDyn.get_velocity", "src/dg_commons/sim/models/pedestrian.py:PedestrianModel.get_velocity", "src/dg_commons/sim/models/spacecraft.py:SpacecraftModel.get_velocity", "src/dg_commons/sim/models/diff_drive.py:DiffDriveModel.get_velocity"]}
{"id": "C83", "title": "Tyres stay within their friction circle", "statement": "In the dynamic single track model the normal loads of the two axles add up to the weight, the total tyre force on an axle never exceeds friction times normal load, and the derivative is defined for every state.", "quantifier": "every state and command with positive masses and lengths", "why_tests_cant": "A continuum of states and commands.", "anchors": ["src/dg_commons/sim/models/vehicle_dynamic.py:VehicleModelDyn.dynamics"]}
{"id": "C85", "title": "Frequency weighted acceleration", "statement": "get_acc_rms is defined exactly for two or more samples in the window, equals the metric of the subsequence, scales with the accelerations, and gives an oscillation of frequency f its amplitude over the square root of two times the weight of f; a constant acceleration gives its magnitude times the weight of frequency zero.", "quantifier": "all command sequences, windows, amplitudes, phases and frequencies", "why_tests_cant": "Sums of trigonometric functions of arbitrary length.", "anchors": ["src/dg_commons/eval/comfort.py:get_acc_rms", "src/dg_commons/eval/comfort.py:acc_freq_filter"]}
{"id": "C87", "title": "Time to collision and required deceleration metrics", "statement": "get_min_ttc_max_drac returns the least time to collision and the largest required deceleration over all times in range and all other active agents that close in on the ego, with the agent and time attaining them; has_collision is true exactly if the ego is in some collision report.", "quantifier": "all logs, models, missions and windows", "why_tests_cant": "Arbitrary number of players and times.", "anchors": ["src/dg_commons/eval/safety.py:get_min_ttc_max_drac", "src/dg_commons/eval/safety.py:get_ttc_drac_at_t", "src/dg_commons/eval/safety.py:has_collision"]}
{"id": "C86", "title": "Goals are fulfilled where they say", "statement": "A pose goal is fulfilled exactly by the states whose pose differs from the goal pose by at most the tolerance; a lane goal is fulfilled by the positions on the lane from its progress (in metres) on and never before it; the goal at the end of a lane contains the end of the lane; polygon and lane goals depend on the position only, no goal depends on the time, and every goal can be drawn.", "quantifier": "all goals, states, times, lanes and tolerances", "why_tests_cant": "Continuous domain of states and lanes.", "anchors": ["src/dg_commons/sim/goals.py:PoseGoal.is_fulfilled", "src/dg_commons/sim/goals.py:RefLaneGoal.is_fulfilled", "src/dg_commons/sim/goals.py:PolygonGoal.from_DgLanelet", "src/dg_commons/sim/goals.py:_polygon_at_along_lane"]}
{"id": "C84", "title": "Outlines, wheels, lights and meshes of bodies", "statement": "The outline of a vehicle is a closed box around both axles whose length is the vehicle's length; the lights lie on its front and back sides with left and right in order; the wheels lie inside it and only the front ones turn with the steering; the footprint is the outline moved rigidly with the state; and the four named parts of the collision mesh exactly cover the body, each next to the side it is named after.", "quantifier": "every geometry of every vehicle type, every steering angle, pose and point of the body", "why_tests_cant": "the claims are about all points of a continuum and all sizes and poses, and the interesting cases (steered wheels, short front overhang, a mesh built from the first four vertices of a disc) are not in any test", "anchors": ["src/dg_commons/sim/models/vehicle_structures.py: VehicleGeometry.outline, wheel_shape, lights_position, get_rotated_wheels_outlines, length", "src/dg_commons/sim/models/vehicle.py: VehicleModel.get_footprint, get_mesh", "src/dg_commons/sim/models/diff_drive.py: DiffDriveModel.get_mesh", "src/dg_commons/sim/models/diff_drive_structures.py: DiffDriveGeometry"]}
{"id": "C88", "title": "Imported vehicles follow the lane they drive on", "statement": "The lane inferred for an imported vehicle leads from a lanelet under its first position through a lanelet under its last position if there is such a lane, among several the one most aligned with its initial orientation (modulo full turns), and otherwise follows its trajectory.", "quantifier": "all networks, obstacles, trajectories and minimisers", "why_tests_cant": "Arbitrary networks, ids and angles.", "anchors": ["src/dg_commons/sim/scenarios/utils_dyn_obstacle.py:infer_lane_from_dyn_obs", "src/dg_commons/sim/scenarios/utils.py:dglane_from_position"]}
{"id": "C89", "title": "Imported vehicles have the body of the obstacle", "statement": "The model of an imported vehicle starts with the position, orientation and speed of the obstacle, a steering angle within the limits, positive mass and inertia, and an outline of the length and width of the obstacle.", "quantifier": "all dynamic obstacles", "why_tests_cant": "Continuous domain.", "anchors": ["src/dg_commons/sim/scenarios/model_from_dyn_obstacle.py:infer_model_from_cr_dyn_obstacle"]}
{"id": "C90", "title": "Scenario files are found by name", "statement": "A scenario is found if and only if a file of its name (with .xml appended if missing) is in the directory tree; a missing one is a FileNotFoundError; of several the one in the last directory of the walk is read.", "quantifier": "all names and directory trees", "why_tests_cant": "Arbitrary trees.", "anchors": ["src/dg_commons/sim/scenarios/utils.py:load_commonroad_scenario"]}
{"id": "C91", "title": "Obstacles of a scenario with road boundaries", "statement": "The static obstacles of a DgScenario are the given ones followed by the road boundaries (if wanted and a scenario is given), and the search tree holds their shapes in the same order.", "quantifier": "all obstacle lists, scenarios and boundary builders", "why_tests_cant": "Universally quantified over lists and builders.", "anchors": ["src/dg_commons/sim/scenarios/structures.py:DgScenario"]}
{"id": "C92", "title": "The camera of an animation shows the players", "statement": "With automatic limits every player is in the picture with a margin and the picture is no larger than that needs; with the name of a player the picture is a square of fixed size that contains that player, shifted towards where the player is heading; with fixed limits the picture is those limits. Every other request is refused, the documented empty name works like automatic limits, and a failing computation falls back to automatic scaling.", "quantifier": "all players, states and requested limits", "why_tests_cant": "Arbitrary numbers of players, positions, headings and speeds.", "anchors": ["src/dg_commons/sim/simulator_animation.py:adjust_axes_limits", "src/dg_commons/sim/simulator_animation.py:approximate_bounding_box_players"]}
{"id": "C93", "title": "Animations show the whole log in real time", "statement": "An animation of a log has a first picture of its beginning and then one frame every requested interval until the end of the log, each showing every player where the log has them at that time; its file plays at the speed of the simulation and has the requested name with a video ending. Every log of a run can be animated.", "quantifier": "all logs, intervals, file names and runs of the simulator", "why_tests_cant": "Arbitrary logs, numbers of players and intervals.", "anchors": ["src/dg_commons/sim/simulator_animation.py:create_animation", "src/dg_commons/sim/simulator_animation.py:SimRenderer"]}
{"id": "C94", "title": "Who collided", "statement": "The set of players that collided names each player at most once, and exactly those that some collision report of the context names; after a run these are the players of all collision calls of the run that yielded a report.", "quantifier": "all contexts and runs", "why_tests_cant": "Arbitrary report lists and histories.", "anchors": ["src/dg_commons/sim/utils.py:who_collided"]}
{"id": "C95", "title": "Drawn players are where the state is", "statement": "In every frame of an animation the drawn body of a player (and, as requested, its wheels, lights, thrusters, nozzles and name) is the model of that player, turned and moved to the state of that frame, in the colour of the model; in particular the drawn body is the footprint that collisions use. What was asked for in one frame can be asked for in every later one. A model without a drawing is refused.", "quantifier": "all models, geometries, sequences of states and commands, and drawing options", "why_tests_cant": "Arbitrary sequences of frames with artists that are updated in place.", "anchors": ["src/dg_commons/sim/simulator_visualisation.py:plot_player", "src/dg_commons/sim/simulator_visualisation.py:plot_vehicle", "src/dg_commons/sim/simulator_visualisation.py:plot_pedestrian", "src/dg_commons/sim/simulator_visualisation.py:plot_diff_drive", "src/dg_commons/sim/simulator_visualisation.py:plot_rocket", "src/dg_commons/sim/simulator_visualisation.py:plot_spaceship", "src/dg_commons/sim/simulator_visualisation.py:plot_spacecraft"]}
{"id": "C96", "title": "Bodies of rockets, spaceships, spacecraft and pedestrians", "statement": "The footprint of each of these models covers its body, its nozzles and its thrusters and has the requested dimensions; nozzles point where the thrust acts against; the length and direction of a flame follow the force that acts on the body, and without thrust there is none.", "quantifier": "all dimensions, states and commands", "why_tests_cant": "Real geometry parameters and angles.", "anchors": ["src/dg_commons/sim/models/rocket_structures.py:RocketGeometry", "src/dg_commons/sim/models/spaceship_structures.py:SpaceshipGeometry", "src/dg_commons/sim/models/spacecraft_structures.py:SpacecraftGeometry", "src/dg_commons/sim/models/pedestrian.py:PedestrianGeometry", "src/dg_commons/sim/models/rocket.py:RocketModel"]}
{"id": "C97", "title": "Drawings of shapes", "statement": "A drawn polygon shows its colour exactly inside its exterior and outside of its holes; several polygons show each of them; points and lines are drawn as they are; empty shapes draw nothing; every documented kind of shape can be drawn.", "quantifier": "all shapes, styles and points", "why_tests_cant": "Arbitrary numbers of holes and parts.", "anchors": ["src/dg_commons/maps/shapely_viz.py:ShapelyViz"]}
{"id": "C98", "title": "The drawn scene", "statement": "The picture of the arena shows every obstacle and every static goal in its colour, obstacles over goals; goals that move are where they are at the time of the frame; the trajectories that an agent reports are drawn in the frames in which it reports them, and only there.", "quantifier": "all obstacles, missions, frames and reports", "why_tests_cant": "Arbitrary numbers of obstacles and goals, and arbitrary histories of frames.", "anchors": ["src/dg_commons/sim/simulator_visualisation.py:plot_arena", "src/dg_commons/sim/simulator_visualisation.py:plot_timevarying_goals", "src/dg_commons/sim/simulator_visualisation.py:plot_trajectories", "src/dg_commons/sim/simulator_animation.py:create_animation"]}
{"id": "C99", "title": "Plots of logs", "statement": "The plot of the log of a player has one subplot for each field of its states and of its commands, each with the logged values at the logged times; the plot of several players has these for each of the players asked for; other figures do not change; the figure that is given is used.", "quantifier": "all logs, fields, players and figures", "why_tests_cant": "Arbitrary numbers of fields, samples and players.", "anchors": ["src/dg_commons/sim/log_visualisation.py:plot_player_log", "src/dg_commons/sim/log_visualisation.py:plot_players_logs"]}
{"id": "C100", "title": "Road boundaries", "statement": "The obstacles that close off a road run along the border of the buffered lanes, all of it except near the open ends of the road, where lanes begin or end without a neighbour; they keep the requested distance from every lane; every road with lanes, and every buffer that a scenario accepts, has such boundaries.", "quantifier": "all road networks, buffers and geometry libraries that compute buffers, unions and differences correctly", "why_tests_cant": "Arbitrary numbers of lanes with arbitrary shapes and connections; the statement is about all points of the boundary.", "anchors": ["src/dg_commons/maps/road_bounds.py:build_road_boundary_obstacle", "src/dg_commons/sim/scenarios/structures.py:DgScenario"]}
{"id": "C101", "title": "Pictures of collisions", "statement": "The picture of a collision shows the point of impact, the normal, and for every player of the report its outline, name, impact areas, velocities before and after and the velocity of the point of contact, placed where the player was at the time of the collision; for collisions that the simulator resolved it shows contact points that approach each other and velocity changes along the normal. Every collision in the context of a finished run can be drawn.", "quantifier": "all reports, logs and runs", "why_tests_cant": "Arbitrary reports, logs and shapes; for runs, all schedules of the simulator.", "anchors": ["src/dg_commons/sim/collision_visualisation.py:plot_collision"]}
{"id": "C102", "title": "Direction of an impact", "statement": "The direction of an impact is the angle between the heading of the vehicle and the line from its centre to the point of impact, in (-pi, pi], and it does not change when the whole scene is moved and turned.", "quantifier": "all states and points", "why_tests_cant": "Real angles, wrap-around.", "anchors": ["src/dg_commons/sim/collision_utils.py:get_impact_point_direction"]}
{"id": "C103", "title": "Moving trajectories", "statement": "Moving a trajectory by a rigid transform keeps its timestamps, moves the pose of every sample by the transform (headings in (-pi, pi]), leaves speed and steering angle alone, and keeps the pose of any sample seen from any other; moving twice is moving by the product and moving by the inverse undoes it; between samples position, speed and steering are the moved ones of the original.", "quantifier": "all trajectories that can be built, all transforms, all query times", "why_tests_cant": "Real angles with wrap-around; sequences of any length.", "anchors": ["src/dg_commons/planning/trajectory.py:Trajectory.apply_SE2transform", "src/dg_commons/planning/trajectory.py:Trajectory.as_path"]}
{"id": "C104", "title": "Motion is the same everywhere", "statement": "For every dynamic model, moving and turning the initial state in the plane and then applying any history of commands gives the moved and turned end state: no place or heading is special, before or after a collision, and no update fails in one place and works in another. The same holds for the predictions of the planner's bicycle model.", "quantifier": "all models, parameters, states, transforms, command histories, explicit Runge-Kutta methods and step sequences", "why_tests_cant": "Unbounded histories and real states.", "anchors": ["src/dg_commons/sim/models/vehicle.py:VehicleModel.update", "src/dg_commons/sim/models/vehicle_dynamic.py:VehicleModelDyn.dynamics", "src/dg_commons/sim/models/pedestrian.py:PedestrianModel.dynamics", "src/dg_commons/sim/models/diff_drive.py:DiffDriveModel.dynamics", "src/dg_commons/sim/models/spacecraft.py:SpacecraftModel.dynamics", "src/dg_commons/sim/models/rocket.py:RocketModel.dynamics", "src/dg_commons/sim/models/spaceship.py:SpaceshipModel.dynamics", "src/dg_commons/sim/models/obstacles_dyn.py:DynObstacleModel.dynamics"]}
{"id": "C105", "title": "Left and right are alike", "statement": "For every dynamic model, mirroring the initial state and the commands mirrors the motion, provided limits given as intervals are symmetric. The same holds for the predictions of the planner's bicycle model.", "quantifier": "all models, parameters, states, command histories, explicit Runge-Kutta methods and step sequences", "why_tests_cant": "Unbounded histories and real states.", "anchors": ["src/dg_commons/sim/models/vehicle.py:VehicleModel.update", "src/dg_commons/sim/models/vehicle_utils.py:steering_constraint", "src/dg_commons/sim/models/model_utils.py:apply_rot_speed_constraint", "src/dg_commons/sim/models/tires.py:Pacejka.evaluate"]}
{"id": "C106", "title": "Planner and simulator move alike", "statement": "As long as no limit is reached, the integrated prediction of the planner's bicycle model is the state the simulator's vehicle model reaches with the same commands, step for step and as exact motions; the one-step prediction always stays within the limits and is one Euler step of the simulator's model when no limit is reached.", "quantifier": "all geometries, parameters, states, commands, durations, consistent explicit Runge-Kutta methods (RK45 among them) and non-negative steps", "why_tests_cant": "Real states, unbounded numbers of steps.", "anchors": ["src/dg_commons/dynamics/bicycle_dynamic.py:BicycleDynamics.successor", "src/dg_commons/dynamics/bicycle_dynamic.py:BicycleDynamics.successor_ivp", "src/dg_commons/sim/models/vehicle.py:VehicleModel.dynamics"]}
{"id": "C107", "title": "What lane followers report", "statement": "A lane follower asked to report gives, right after its commands, one golden line from its rear axle to the point of the lane it steers to, the one its steering angle was computed from, at most min_distance plus lookahead further along the lane; one that was not asked reports nothing.", "quantifier": "all vehicles, lanes, states, speeds and minimisers that respect their bounds", "why_tests_cant": "Real geometry and an external optimiser.", "anchors": ["src/dg_commons/sim/agents/lane_follower.py:LFAgent.on_get_extra", "src/dg_commons/controllers/pure_pursuit.py:PurePursuit.from_model_geometry"]}
{"id": "C108", "title": "The log of states cannot be changed by agents", "statement": "For every simulation, whatever the agents do with the observations and commands objects they hold (including writing to them at any later time), every state stored in context.log[p].states reads, when the run is over, exactly as the state of p was at that time; an entry, once logged, never changes, not even when collisions later write velocities into the state of the model.", "quantifier": "all scenarios, agents (any function of the memory that writes to any object it was given), sensors, models, collision resolutions, and all instants of all runs", "why_tests_cant": "Aliasing bugs appear only for particular interleavings of agents that keep and modify objects; a test exercises one agent program, the claim is about every one.", "anchors": ["src/dg_commons/sim/simulator.py: Simulator.update, Simulator.run", "src/dg_commons/sim/simulator_structures.py: SimModel.get_state, PlayerLogger", "src/dg_commons/sim/models/vehicle.py: VehicleModel.update, set_velocity"]}
{"id": "C109", "title": "Agents move players only through their commands, and start states are never written", "statement": "During a tick the state of an active player changes only by model.update with a commands object, and that of an inactive player does not change, whatever the agents write to the objects they were shown. The state objects the models were constructed with are never written during the simulation (not even by collisions), so the same initial state object can be given to several models.", "quantifier": "all scenarios, agents, sensors, models, including several models sharing one initial state object", "why_tests_cant": "Requires that no reference to a model's state escapes to any agent, for all agent programs.", "anchors": ["src/dg_commons/sim/simulator.py: Simulator.pre_update, Simulator.update, post_update", "src/dg_commons/sim/simulator_structures.py: SimModel.get_state, set_state", "src/dg_commons/sim/models/vehicle.py: VehicleModel.__init__, update, set_velocity"]}
{"id": "C110", "title": "Observations are new objects at each instant; commands and observations are shared within it", "statement": "Whenever commands are due, the agents are shown newly made objects holding the true states of the active players, so earlier misuse of observations has no effect. Within one instant however all agents are shown the same objects, so an agent that writes to a state changes what later agents are shown; and the log of commands stores the agent's own objects, so an agent that reuses one commands object rewrites its log (the positive statements 'every agent is shown the true states' and 'the logged command is the one applied' are refuted for such agents).", "quantifier": "all scenarios, agents, sensors and instants", "why_tests_cant": "Depends on which objects are shared between agents, the log and the simulator; visible only with agents that modify objects.", "anchors": ["src/dg_commons/sim/simulator.py: Simulator.pre_update, Simulator.update (last_commands, commands.add)"]}
{"id": "C111", "title": "Passing values describes the simulator exactly when agents write to nothing", "statement": "For agents and sensors that do not write to the objects they are given (they return new commands, or commands made before the run), the simulator with Python's references and the simulator that passes values give the same outcome: same termination, same exception, and the same logs, reports, models and observations when read. All properties proved of the value-passing simulator (C20-C30) then hold of the program with references.", "quantifier": "all such agents and sensors, all scenarios, models (also sharing initial state objects), and all run lengths", "why_tests_cant": "A statement about two programs agreeing on every input.", "anchors": ["src/dg_commons/sim/simulator.py: Simulator.run and all it calls", "src/dg_commons/sim/simulator_structures.py: SimModel, PlayerLogger, PlayerLog"]}
{"id": "C112", "title": "An update integrates the equations of motion, every coordinate by its own rate, with held commands", "statement": "Updating a model for some time takes its state where an explicit Runge-Kutta method with the given steps takes the solution of the model's equations of motion: every coordinate of the state (position, heading, speeds, steering angle, nozzle angle, mass) moves by the weighted rates of that same coordinate times the step, the rates are those of the equations of motion at the intermediate states, and the commands used for all of them are the commands given (or none, for a collided model that ignores them). Nothing else changes the state. The same holds for the integrating planner dynamics.", "quantifier": "every model kind and its parameters, every state, commands, collision flag, Runge-Kutta method, sequence of steps", "why_tests_cant": "A coordinate added to the wrong one or a command that drifts during a step shows only in some states and for some commands; tests compare a few trajectories with a tolerance.", "anchors": ["src/dg_commons/sim/models/vehicle.py:VehicleModel.update", "src/dg_commons/sim/models/vehicle_dynamic.py:VehicleModelDyn", "src/dg_commons/sim/models/pedestrian.py:PedestrianModel.update", "src/dg_commons/sim/models/diff_drive.py:DiffDriveModel.update", "src/dg_commons/sim/models/spacecraft.py:SpacecraftModel.update", "src/dg_commons/sim/models/obstacles_dyn.py:DynObstacleModel.update", "src/dg_commons/sim/models/rocket.py:RocketModel.update", "src/dg_commons/sim/models/spaceship.py:SpaceshipModel.update", "src/dg_commons/dynamics/bicycle_dynamic.py:BicycleDynamics.successor_ivp"]}
{"id": "C113", "title": "Bodies, wheels, nozzles and flames are the shapes they stand for", "statement": "The outline of a vehicle encloses exactly the rectangle from its rear to its front bumper, as long as its length, over its width with the tyres. The outlines of rockets and spaceships are the union of the box of the body and the cone before it, those of spacecraft of a box and of an ellipse around the centre. Wheels and nozzles enclose boxes, flames cones whose length is half the share of the thrust in the maximal thrust. All rings are closed and all shapes are their own mirror images in the long axis.", "quantifier": "every geometry with positive dimensions, every point of the plane", "why_tests_cant": "A wrong corner changes which points are inside only on one side or in front; collision tests use a handful of poses.", "anchors": ["src/dg_commons/sim/models/vehicle_structures.py:VehicleGeometry.outline", "src/dg_commons/sim/models/vehicle_structures.py:VehicleGeometry.wheel_outline", "src/dg_commons/sim/models/rocket_structures.py:RocketGeometry.outline", "src/dg_commons/sim/models/spaceship_structures.py:SpaceshipGeometry.outline", "src/dg_commons/sim/models/spacecraft_structures.py:SpacecraftGeometry.outline"]}
{"id": "C114", "title": "Model parameters are checked when they are made, and the defaults are in the stated units", "statement": "Making the parameters of a model (speed and acceleration limits, steering, rotation, thrust, nozzle and mass limits) succeeds exactly when every range is ordered and every maximum is positive, and then returns the values given; otherwise it raises an assertion error. All default parameters pass and their speed limits are the stated numbers of km/h in m/s, their nozzle limits the stated numbers of degrees in radians.", "quantifier": "every class of parameters and every choice of values", "why_tests_cant": "Tests construct the defaults only; a missing check in one class or a unit factor shows in limits that are enforced much later.", "anchors": ["src/dg_commons/sim/models/model_structures.py:ModelParameters", "src/dg_commons/sim/models/vehicle_utils.py:VehicleParameters", "src/dg_commons/sim/models/pedestrian_utils.py:PedestrianParameters", "src/dg_commons/sim/models/diff_drive_structures.py:DiffDriveParameters", "src/dg_commons/sim/models/spacecraft_structures.py:SpacecraftParameters", "src/dg_commons/sim/models/rocket_structures.py:RocketParameters", "src/dg_commons/sim/models/spaceship_structures.py:SpaceshipParameters", "src/dg_commons/sim/models/utils.py:kmh2ms"]}
{"id": "C115", "title": "A model stands where its state says, with the body of its geometry", "statement": "The pose of a model is the position and heading of its state and its footprint is the outline of its geometry (the given shape for obstacles) turned by the heading and moved to the position, as one rigid motion. Its velocity in the world is its velocity in its own frame, turned by the heading. The vehicle's mesh is the mesh of its geometry moved by the same motion, most other models have one part, everywhere. Two models with the same body whose states differ by a rigid motion have footprints and meshes that differ by it.", "quantifier": "every model kind, state, geometry and shape", "why_tests_cant": "Tests look at a few poses; a transposed rotation or an outline of the wrong class is wrong only away from the origin or for one class of models.", "anchors": ["src/dg_commons/sim/models/vehicle.py:VehicleModel.get_footprint", "src/dg_commons/sim/models/vehicle.py:VehicleModel.get_mesh", "src/dg_commons/sim/models/pedestrian.py:PedestrianModel.get_footprint", "src/dg_commons/sim/models/obstacles_dyn.py:DynObstacleModel.get_footprint", "src/dg_commons/sim/models/rocket.py:RocketModel.get_footprint", "src/dg_commons/sim/models/spaceship.py:SpaceshipModel.get_footprint", "src/dg_commons/sim/models/spacecraft.py:SpacecraftModel.get_footprint", "src/dg_commons/sim/models/diff_drive.py:DiffDriveModel.get_footprint"]}
{"id": "C116", "title": "Friction after a collision opposes the motion", "statement": "The extra acceleration of a model is zero before a collision; after one it is opposite to its velocity and to its rotation and proportional to them, so it never adds energy: 3/s for two-wheelers, 1/s for other dynamic vehicles, 2/s for pedestrians. It is what the equations of motion add. Other models have none; asking the spaceship or an obstacle is a NotImplementedError.", "quantifier": "every model with a state of its class, collided or not", "why_tests_cant": "A wrong sign or axis speeds a crashed agent up only for some directions of motion.", "anchors": ["src/dg_commons/sim/models/vehicle_dynamic.py:VehicleModelDyn.get_extra_collision_friction_acc", "src/dg_commons/sim/models/pedestrian.py:PedestrianModel.get_extra_collision_friction_acc", "src/dg_commons/sim/models/vehicle.py:VehicleModel.get_extra_collision_friction_acc", "src/dg_commons/sim/models/spaceship.py:SpaceshipModel.get_extra_collision_friction_acc"]}
{"id": "C117", "title": "Ready-made models are consistent", "statement": "Each default model (car, truck, bicycle, their dynamic versions, pedestrian, differential drive, spacecraft, rocket, spaceship) can be made from any state of its class. It starts in that state, has not collided, has the right type and kind, proper parameters, positive mass and moment of inertia as documented and a restitution between zero and one; its geometry has the documented dimensions and thrusters, and vehicles have a mesh of four sides. Static geometries have infinite mass and moment of inertia.", "quantifier": "all eleven default models and every state of their class", "why_tests_cant": "Defaults combine parameters and geometries from several files; a swapped default is a plausible model of something else and fails no test.", "anchors": ["src/dg_commons/sim/models/vehicle.py:VehicleModel.default_car", "src/dg_commons/sim/models/vehicle_dynamic.py:VehicleModelDyn.default_car", "src/dg_commons/sim/models/pedestrian.py:PedestrianModel.default", "src/dg_commons/sim/models/diff_drive.py:DiffDriveModel.default", "src/dg_commons/sim/models/spacecraft.py:SpacecraftModel.default", "src/dg_commons/sim/models/rocket.py:RocketModel.default", "src/dg_commons/sim/models/spaceship.py:SpaceshipModel.default", "src/dg_commons/sim/models/model_structures.py:ModelGeometry"]}
{"id": "C118", "title": "Models refuse states of another class", "statement": "Making a model with a state of another class, or setting such a state, raises an error; the shape of an obstacle must be valid.", "quantifier": "all default models, every object given as a state", "why_tests_cant": "Which classes are refused depends on the model class; tests use matching states.", "anchors": ["src/dg_commons/sim/models/pedestrian.py:PedestrianModel.__init__", "src/dg_commons/sim/models/vehicle.py:VehicleModel.__init__", "src/dg_commons/sim/models/obstacles_dyn.py:DynObstacleModel.__init__", "src/dg_commons/sim/simulator_structures.py:SimModel.set_state"]}
{"id": "C119", "title": "Free bodies leave a collision as mechanics says", "statement": "When two models that can move in any direction (spacecraft, rockets, spaceships, dynamic obstacles) collide, the velocities that the models have afterwards obey the law of restitution at the impact point with the smaller of the two coefficients, conserve momentum and angular momentum and gain no energy; they only get these velocities and the collision flag. They separate, so asking again resolves nothing. Against a static obstacle such a model bounces off with the smaller coefficient and gains no energy.", "quantifier": "every pair of models with finite mass, every state, impact point and normal, lane network and answer of the geometry library", "why_tests_cant": "The impulse code is tested on numbers; whether a model takes the velocity it is given depends on the class of the model and its heading.", "anchors": ["src/dg_commons/sim/collision.py:resolve_collision", "src/dg_commons/sim/collision.py:resolve_collision_with_environment", "src/dg_commons/sim/models/spacecraft.py:SpacecraftModel.set_velocity", "src/dg_commons/sim/models/obstacles_dyn.py:DynObstacleModel.set_velocity", "src/dg_commons/sim/models/rocket.py:RocketModel.set_velocity", "src/dg_commons/sim/models/spaceship.py:SpaceshipModel.set_velocity"]}
{"id": "C120", "title": "Vehicles leave a collision as mechanics says", "statement": "After a collision a vehicle (bicycle model) moves with the velocity that is reported for it: momentum is conserved, no energy is gained and the vehicle does not go on into what it hit.", "quantifier": "every collision of a vehicle with another model or a static obstacle, every steering angle", "why_tests_cant": "Depends on heading, steering and place of impact; tests hit vehicles frontally if at all.", "anchors": ["src/dg_commons/sim/collision.py:resolve_collision", "src/dg_commons/sim/collision.py:resolve_collision_with_environment", "src/dg_commons/sim/models/vehicle.py:VehicleModel.set_velocity", "src/dg_commons/sim/models/vehicle.py:VehicleModel.get_velocity"]}
{"id": "C121", "title": "Dynamic vehicles, pedestrians and robots leave a collision as mechanics says", "statement": "After a collision a dynamic vehicle, a pedestrian or a differential drive robot moves and turns as is reported for it, so that momentum and angular momentum are conserved.", "quantifier": "every collision of these models with each other or with free bodies", "why_tests_cant": "The reports are right and the states are not; only comparing the two for all impacts shows it.", "anchors": ["src/dg_commons/sim/collision.py:resolve_collision", "src/dg_commons/sim/models/vehicle_dynamic.py:VehicleModelDyn.set_velocity", "src/dg_commons/sim/models/pedestrian.py:PedestrianModel.set_velocity", "src/dg_commons/sim/models/diff_drive.py:DiffDriveModel.set_velocity"]}
{"id": "C122", "title": "One update of a model of the package, as an object", "statement": "Calling update on a vehicle, dynamic vehicle, pedestrian, differential drive robot, spacecraft, dynamic obstacle, rocket or spaceship replaces its state by a new state object of its class whose values are those that one step of the solver gives for the documented equations of motion with the given commands (zero commands after a collision where the class says so); nothing else of the model changes. It fails exactly when the solver does or an attribute is missing.", "quantifier": "every model of each kind, every state, every command object with the needed attributes, every explicit Runge-Kutta scheme and list of step sizes", "why_tests_cant": "The path through as_ndarray, the flattened solver vector and from_array depends on the order of the fields of every class; a swap shows for some states only.", "anchors": ["src/dg_commons/sim/models/vehicle.py:VehicleModel.update", "src/dg_commons/sim/models/vehicle_dynamic.py:VehicleModelDyn.update", "src/dg_commons/sim/models/pedestrian.py:PedestrianModel.update", "src/dg_commons/sim/models/diff_drive.py:DiffDriveModel.update", "src/dg_commons/sim/models/spacecraft.py:SpacecraftModel.update", "src/dg_commons/sim/models/obstacles_dyn.py:DynObstacleModel.update", "src/dg_commons/sim/models/rocket.py:RocketModel.update", "src/dg_commons/sim/models/spaceship.py:SpaceshipModel.update"]}
{"id": "C123", "title": "The simulator with the models of the package", "statement": "In a simulation whose models are those of the package, every player keeps its model: class, geometry, parameters and shape never change, a collided model stays collided, and logged states are complete objects of the state class of the model. A model is marked as collided exactly if a collision report names its player (dynamic obstacles can be marked without a report). Every report names two different players, or a player and the environment, with the data of the impact for both and the simulation time of the collision.", "quantifier": "every mix of models of the package, agents, scenario, answers of the geometry library, solver and number of iterations, for runs that complete", "why_tests_cant": "The loop, the collision code and the model classes are tested apart; this is about all runs of them together.", "anchors": ["src/dg_commons/sim/simulator.py:Simulator.run", "src/dg_commons/sim/simulator.py:Simulator.update", "src/dg_commons/sim/simulator.py:Simulator._check_collisions_among_players", "src/dg_commons/sim/collision.py:resolve_collision", "src/dg_commons/sim/collision.py:resolve_collision_with_environment"]}
{"id": "C124", "title": "Limits on steering, nozzles and mass over a whole simulation", "statement": "With an exact solver, in any simulation with the models of the package: a steering angle or a nozzle angle (delta of a vehicle or dynamic vehicle, phi of a rocket, delta of a spaceship) that starts within the limits of the parameters of the model is within them in every logged state, whatever the agents command and whatever collisions happen; the mass of a rocket or spaceship never increases from one logged state to a later one and never goes below the smaller of its initial value and the mass of the empty vehicle.", "quantifier": "every mix of models, agents, scenario, answers of the geometry library, number of iterations and commands, for runs that complete, the solver following the equations exactly", "why_tests_cant": "A limit holds over a run only if the motion, the collisions and the log all keep it; tests see a few commands over a few steps.", "anchors": ["src/dg_commons/sim/models/vehicle.py:VehicleModel.dynamics", "src/dg_commons/sim/models/vehicle_dynamic.py:VehicleModelDyn.dynamics", "src/dg_commons/sim/models/rocket.py:RocketModel.dynamics", "src/dg_commons/sim/models/spaceship.py:SpaceshipModel.dynamics", "src/dg_commons/sim/simulator.py:Simulator.update"]}
{"id": "C125", "title": "Limits on speeds until the first collision", "statement": "With an exact solver, in any simulation with the models of the package: the speed of a vehicle or pedestrian, the rate of turning of a spacecraft and the two velocity components and rate of turning of a moving obstacle, if they start within the limits of the parameters of the model, are within them in every logged state up to the first collision report that names its player (for a moving obstacle also up to its first unreported contact with a static one).", "quantifier": "every mix of models, agents, scenario, answers of the geometry library, number of iterations and commands, for runs that complete, the solver following the equations exactly", "why_tests_cant": "It is a statement on all command histories and on the interplay of motions, contacts and log.", "anchors": ["src/dg_commons/sim/models/model_utils.py:apply_acceleration_limits", "src/dg_commons/sim/models/vehicle.py:VehicleModel.dynamics", "src/dg_commons/sim/models/pedestrian.py:PedestrianModel.dynamics", "src/dg_commons/sim/models/spacecraft.py:SpacecraftModel.dynamics", "src/dg_commons/sim/models/obstacles_dyn.py:DynObstacleModel.dynamics", "src/dg_commons/sim/simulator.py:Simulator.run"]}
{"id": "C126", "title": "Conservation over all collisions of one iteration", "statement": "If all models of a simulation are bodies that collisions can push freely (spacecraft, moving obstacles, rockets, spaceships of finite mass) and no static obstacle is touched in an iteration, then all the collisions of that iteration together, however many there are and in whatever order they are resolved, leave the total linear momentum and the total angular momentum about every point as the motion of that iteration left them, and they do not increase the total kinetic energy if every restitution coefficient is between 0 and 1.", "quantifier": "every number of bodies, their states, masses and shapes, agents, scenario, answers of the geometry library and solver, every reachable state of the simulation and its next iteration, provided every impact report of the iteration has a normal and a point", "why_tests_cant": "A chain of pairwise impulses in one iteration multiplies every error; a test has two bodies and one impact.", "anchors": ["src/dg_commons/sim/simulator.py:Simulator._check_collisions_among_players", "src/dg_commons/sim/simulator.py:Simulator.post_update", "src/dg_commons/sim/collision.py:resolve_collision", "src/dg_commons/sim/collision.py:compute_impulse_response"]}
{"id": "C127", "title": "The decimal clock of the simulator", "statement": "Simulation times are decimals whose sums and differences are rounded to 28 digits, to the nearest such number, to an even one of two, and exactly if the result has at most 28 digits, however the operands are written. If the initial time, the step, the time limit, the time after a collision and the first collision so far have some number of digits after the point and at most 27 altogether, then rounding never happens in a run: its logs, its calls to agents, models, sensors and goals and its exceptions are those of a run on exact numbers. With more digits this fails: with steps and command periods of 1/3 to 28 digits an agent is not asked although a whole period has passed.", "quantifier": "all decimals; all contexts, agents, models, goals, sensors, scenarios and numbers of iterations, provided collision reports carry the time of the collision", "why_tests_cant": "Rounding errors add up over the whole history of a run and show at a comparison of times; a test runs a few steps of round length.", "anchors": ["src/dg_commons/sim/sim_types.py:SimTime", "src/dg_commons/sim/simulator.py:Simulator._need_to_update_commands", "src/dg_commons/sim/simulator.py:Simulator.post_update", "src/dg_commons/sim/simulator.py:Simulator._maybe_terminate_simulation", "src/dg_commons/sim/simulator_structures.py:SimParameters"]}
{"id": "C128", "title": "Forces, torques and fuel of the dynamic models", "statement": "In the frame of the world the spacecraft, the spaceship and the rocket obey Newton's second law with their clipped thrusts along the directions of their nozzles, and Euler's law with the torques of these forces at the places where the nozzles are; without thrust a spacecraft flies straight at constant velocity however it turns. The dynamic vehicle obeys them with the forces of the two tyres and the drag. Whatever a rocket is commanded, its velocity changes at most by the logarithm of the ratio of its masses over the consumption constant; so does that of a spaceship that cannot push backwards. A moving obstacle obeys Newton's law with its commands while no limit is reached. After a collision vehicles and pedestrians are slowed down by a friction proportional to their velocities. Three things a user expects fail: the spaceship can push backwards, gains mass by it and can reach any velocity; an obstacle that turns becomes faster without any command, since the acceleration limits clip the apparent forces; the drag of vehicles grows with the speed and not with its square.", "quantifier": "all parameters, geometries, command signals, initial states and exact motions of any duration", "why_tests_cant": "Conservation laws are statements on whole motions under all command signals; a test sees sampled states of one motion.", "anchors": ["src/dg_commons/sim/models/spacecraft.py:SpacecraftModel.dynamics", "src/dg_commons/sim/models/spaceship.py:SpaceshipModel.dynamics", "src/dg_commons/sim/models/rocket.py:RocketModel.dynamics", "src/dg_commons/sim/models/obstacles_dyn.py:DynObstacleModel.dynamics", "src/dg_commons/sim/models/vehicle_dynamic.py:VehicleModelDyn.dynamics", "src/dg_commons/sim/models/pedestrian.py:PedestrianModel.dynamics"]}
{"id": "C129", "title": "Which exception is raised when", "statement": "The failures a caller can provoke are of fixed kinds, for all inputs of each class: sequences with a timestamp that is no number (ZValueError), accumulation of an unsubscripted sequence (AttributeError), trajectories over nodes without time (TypeError), graphs with cycles or without exactly one root (AssertionError), edges from a node without generation (KeyError), impacts of shapes (only AttributeError and CollisionException), lanes that left their network (AttributeError), questions beyond the end of a lane without control points (IndexError), obstacles without or with an empty prediction (AttributeError, IndexError), empty polygons (IndexError), states without speed (ZValueError), contexts (refused with an AssertionError exactly if the players of models and agents differ or a mission has no model; KeyError for a missing sensor), times of an empty log (ValueError), agents asked before their episode (KeyError) or with states of other models (AttributeError), degenerate spacecraft geometries (AssertionError), drawing of wrong commands, missing fields, wrong numbers of colours and goals that are no polygons, and steering with a lookahead of zero (ZeroDivisionError).", "quantifier": "all arguments of each named class", "why_tests_cant": "Tests provoke an exception with a few arguments; that every argument of the class gives this one and no other needs a proof.", "anchors": ["src/dg_commons/seq/sequence.py:DgSampledSequence", "src/dg_commons/planning/trajectory.py:TrajectoryGraph", "src/dg_commons/sim/collision_utils.py:compute_impact_geometry", "src/dg_commons/maps/lanes.py:DgLanelet", "src/dg_commons/sim/simulator.py:SimContext.__post_init__", "src/dg_commons/sim/log_visualisation.py", "src/dg_commons/sim/simulator_visualisation.py:SimRenderer", "src/dg_commons/controllers/pure_pursuit.py:PurePursuit.get_desired_steering", "src/dg_commons/controllers/speed.py:SpeedBehavior.get_speed_ref"]}
{"id": "C130", "title": "Interpolation and upsampling with Python's floats", "statement": "In binary64 arithmetic, for finite timestamps and values below 2^1000: the constructor accepts timestamps if and only if they increase strictly. Interpolation between float timestamps never fails, gives exactly the sample at a timestamp, before the first and after the last, and is within 2^-49 times the larger of the two neighbouring values (plus 2^-1073) of the straight line; its weight is between 0 and 1 and does not decrease. With Decimal timestamps the same holds with an error that grows with the quotient of the size of the timestamps and their distance. Upsampling inserts timestamps between the others, within 2^-50 of the equidistant ones, and if the timestamps are not too close to each other the result is a valid trajectory that contains the given samples and interpolates them. A user would also expect that equal samples are interpolated by themselves, that weights of Decimal timestamps do not exceed 1 and that no division by zero occurs; these are refuted.", "quantifier": "all finite binary64 timestamps, values and query times below 2^1000; all decimal timestamps with at most 27 digits; all numbers of inserted points", "why_tests_cant": "There are 2^64 floats per argument; a test tries a few, and rounding errors show only for some of them.", "anchors": ["src/dg_commons/seq/sequence.py:DgSampledSequence.__post_init__", "src/dg_commons/seq/sequence.py:DgSampledSequence.at_interp", "src/dg_commons/planning/trajectory.py:Trajectory.upsample"]}
{"id": "C131", "title": "A finished simulation can be replayed from its log", "statement": "If a simulation ends without an exception, then running a new Simulator on the same models, missions, scenario and parameters, with an NPAgent made from the logged commands of each player and the default sensors, ends after the same number of iterations, with the same states of all models, the same players left, the same collision reports and the same logged states and commands at the same times, whatever agents and sensors the first simulation had. Hence agents and sensors matter only through the commands: two simulations that logged the same commands went the same way.", "quantifier": "all contexts accepted by the constructor, all models, agents, sensors, goals and collision outcomes, all lengths of the simulation, all values of the measured computation times", "why_tests_cant": "A test replays a few short simulations with a few agents; the statement is about every agent and every history.", "anchors": ["src/dg_commons/sim/simulator.py:Simulator.run", "src/dg_commons/sim/simulator.py:Simulator.update", "src/dg_commons/sim/agents/agent.py:NPAgent.get_commands", "src/dg_commons/sim/simulator_structures.py:PlayerLogger.as_sequence", "src/dg_commons/seq/sequence.py:DgSampledSequence.at_or_previous"]}
{"id": "C132", "title": "Agents are asked on an exact schedule", "statement": "Let n be dt_commands/dt rounded up to a whole number, at least 1. Every agent is asked for commands at the iterations 0, n, 2n, ... of the simulation for as long as it takes part, and at no other; in particular a command period that is not a multiple of the time step is in effect rounded up to one. With the default parameters and start time 0 the clock shows k/20 after k iterations, agents are asked at 0, 1/10, 2/10, ..., there are at most 121 iterations, and the simulation ends earlier only if nobody is left, nobody with a mission is left, or time has passed since the first collision.", "quantifier": "all contexts accepted by the constructor, all positive time steps, all command periods, all players, models, agents and numbers of iterations", "why_tests_cant": "The requests follow from differences of accumulated times; whether one is ever skipped, doubled or shifted depends on the whole history and on every ratio of the two periods.", "anchors": ["src/dg_commons/sim/simulator.py:Simulator.update", "src/dg_commons/sim/simulator.py:Simulator.pre_update", "src/dg_commons/sim/simulator.py:Simulator.run", "src/dg_commons/sim/simulator_structures.py:SimParameters"]}
{"id": "C133", "title": "What leaving parameters out means", "statement": "The documented default values are the ones in effect: speed behaviour (40 km/h, 7 m, 5 km/h, 1.5 s), speed and steering controllers (gains, limits of the integral), pure pursuit (look-ahead, minimum distance, wheelbase), states without lateral speed and yaw rate, tyres, limits of pedestrians, sizes of rockets and spaceships, the identity transform, the interval searched for the closest point of a lane, the ranges of a sampler, figures made for plots. Each is stated by the behaviour it leads to.", "quantifier": "all observations, histories of controller calls, poses, paths, slips, states, commands, lanes and figures, as each statement says", "why_tests_cant": "A default matters only through the behaviour over all inputs; a test compares a few numbers.", "anchors": ["src/dg_commons/controllers/speed.py:SpeedBehaviorParam", "src/dg_commons/controllers/speed.py:SpeedControllerParam", "src/dg_commons/controllers/steer.py:SteerControllerParam", "src/dg_commons/controllers/pure_pursuit.py:PurePursuitParam", "src/dg_commons/sim/models/vehicle_dynamic.py:VehicleStateDyn", "src/dg_commons/sim/models/pedestrian.py:PedestrianState", "src/dg_commons/sim/models/tires.py:Pacejka", "src/dg_commons/geo.py:SE2Transform.identity", "src/dg_commons/maps/lanes.py:DgLanelet.find_along_lane_closest_point_fast", "src/dg_commons/planning/commands_sampler.py:CommandsSamplerParam.from_vehicle_parameters"]}
{"id": "C134", "title": "Agents and sensors only know what they are given", "statement": "At every point of every simulation the agent of a player is the agent of the context after its episode initialisation and the observations delivered to it, one get_commands and one on_get_extra each, and its answers are what is logged; likewise each sensor has seen exactly the full observations of its player's requests. So in two simulations that differ in anything else an agent gives the same commands as long as it is given the same observations. Consequences inside a whole simulation: an NPAgent's logged commands are those of its plan; a lane follower's logged commands are within its vehicle's limits and after the first emergency shown to it its speed reference stays 0; with a delay filter a player is shown everybody's true state at its earliest request within the latency; with a field-of-view filter a player is shown itself, only players still present, in their true present state, and exactly those touching the visible region of that moment.", "quantifier": "all contexts accepted by the constructor, all positive time steps, all players, models, agents, sensors, scenarios and numbers of iterations; the agents and sensors not named are arbitrary, and every player has its own agent and sensor object", "why_tests_cant": "Leaks between players, look-ahead, a lost or doubled observation or an agent replaced half-way show up only in particular interleavings of long runs.", "anchors": ["src/dg_commons/sim/simulator.py:Simulator.update", "src/dg_commons/sim/simulator.py:Simulator.run", "src/dg_commons/sim/simulator.py:SimContext", "src/dg_commons/sim/agents/agent.py:NPAgent", "src/dg_commons/sim/agents/lane_follower.py:LFAgent", "src/dg_commons/sim/sim_perception.py:DelayedObsFilter", "src/dg_commons/sim/sim_perception.py:FovObsFilter"]}
{"id": "C135", "title": "A player nobody notices and nobody touches changes nothing for the others", "statement": "Add to a simulation a player that the other players' sensors and agents do not react to and with which no collision is resolved. As long as the simulation without it runs, the times, the set of active other players, their states, commands, extras and logs, their models and the reported collisions are the same with and without it. If the added player has no mission the two simulations take the same number of iterations and a complete run writes the same logs for the others; if it has one it can only make the simulation last longer, unless nobody else has a mission. Players with an open-loop plan ignore everybody; players with a GhostObsFilter ignore the ghost as long as the filter kept it out of what they were shown.", "quantifier": "all contexts accepted by the constructor, all positive time steps, all positions of the added player in the dictionaries, all models, agents, sensors, goals, scenarios and numbers of iterations", "why_tests_cant": "Interference through shared attributes, iteration order, dictionary positions or termination depends on who else is in the simulation; testing it needs every pair of simulations differing in one player.", "anchors": ["src/dg_commons/sim/simulator.py:Simulator.update", "src/dg_commons/sim/simulator.py:Simulator.pre_update", "src/dg_commons/sim/simulator.py:Simulator.post_update", "src/dg_commons/sim/simulator.py:Simulator._check_collisions_among_players", "src/dg_commons/sim/simulator.py:Simulator._maybe_terminate_simulation", "src/dg_commons/sim/sim_perception.py:GhostObsFilter", "src/dg_commons/sim/agents/agent.py:NPAgent"]}
{"id": "C136", "title": "The order in which the players are listed does not matter until two of them collide", "statement": "Take two simulation contexts that differ only in the order in which their dictionaries list the models, players, sensors and missions. If sensors and agents do not depend on the order of the players in an observation, then as long as no collision between two players is resolved both runs go through the same times, active players, models, logs, terminations and sets of reports, and a complete run writes the same logs. IdObsFilter, GhostObsFilter and DelayedObsFilter never depend on that order, nor does FovObsFilter when the visible region depends on the set of obstacles only; neither do agents with an open-loop plan nor lane followers among states with a velocity. Once several players touch in one iteration the order can matter, even if the collision test and its resolution are symmetric.", "quantifier": "all pairs of contexts that are permutations of each other, all positive time steps, all models, agents, sensors, goals, scenarios and numbers of iterations; collisions with obstacles included", "why_tests_cant": "A dependence on dictionary order shows only for particular orders and numbers of players; a test fixes one order, and n players have n! of them.", "anchors": ["src/dg_commons/sim/simulator.py:Simulator.run", "src/dg_commons/sim/simulator.py:Simulator.pre_update", "src/dg_commons/sim/simulator.py:Simulator.update", "src/dg_commons/sim/simulator.py:Simulator.post_update", "src/dg_commons/sim/simulator.py:Simulator._check_collisions_among_players", "src/dg_commons/sim/sim_perception.py:FovObsFilter", "src/dg_commons/sim/sim_perception.py:DelayedObsFilter", "src/dg_commons/sim/sim_perception.py:GhostObsFilter", "src/dg_commons/controllers/speed.py:SpeedBehavior", "src/dg_commons/sim/agents/lane_follower.py:LFAgent"]}
{"id": "C137", "title": "A simulation does not depend on the names of the players or on when the clock starts", "statement": "If every function of one simulation (models, agents, sensors, goals, scenario, collision resolution) answers corresponding arguments as the function of another one does, up to an injective renaming of the players and a shift of the clock, then complete runs of corresponding contexts raise the same exception or both end with corresponding models, logs, times, flags and collision reports, and neither is ahead of the other at any iteration. In particular, renaming the players of a simulation in which names mean nothing renames them in the logs and reports and changes nothing else; and running shifted open-loop plans on a clock that starts later gives the same states, commands and collisions, later by that amount. IdObsFilter, DelayedObsFilter, GhostObsFilter (with the ghost's new name), FovObsFilter, open-loop agents and lane followers meet the condition.", "quantifier": "all pairs of worlds and relations between them, all injective renamings, all shifts, all contexts and numbers of iterations, including runs that raise", "why_tests_cant": "A dependence on a name or on absolute time shows only for particular names or starting times; tests use one set of names and start at time 0.", "anchors": ["src/dg_commons/sim/simulator.py:Simulator.run", "src/dg_commons/sim/simulator.py:Simulator.pre_update", "src/dg_commons/sim/simulator.py:Simulator.update", "src/dg_commons/sim/simulator.py:Simulator.post_update", "src/dg_commons/sim/simulator.py:Simulator._maybe_terminate_simulation", "src/dg_commons/sim/sim_perception.py:FovObsFilter", "src/dg_commons/sim/sim_perception.py:DelayedObsFilter", "src/dg_commons/sim/sim_perception.py:GhostObsFilter", "src/dg_commons/sim/agents/agent.py:NPAgent", "src/dg_commons/sim/agents/lane_follower.py:LFAgent"]}
{"id": "C138", "title": "The same simulation somewhere else in the plane", "statement": "Turn and translate a whole simulation: the initial states of the models, the obstacles, the map, and whatever the agents, goals and sensors know of the plane. If the agents, goals and sensors then answer the moved observations as before, the simulation issues the same commands at the same times and either raises the same exception or ends with the same termination time, with all states moved, and with reports of the same collisions: the same players, times, faults and energies, moved points of impact and footprints, turned normals and velocities. In particular updates of the models, and collisions between two players and with static obstacles, do not depend on place and direction.", "quantifier": "all rotations and translations, all contexts with models of every kind but the rocket, all agents, goals, sensors, maps and obstacles of infinite inertia that are moved along, all Runge-Kutta methods and numbers of iterations", "why_tests_cant": "A formula that mixes world and body coordinates is right for some headings, typically the axis-aligned ones tests use, and wrong for others.", "anchors": ["src/dg_commons/sim/simulator.py:Simulator.run", "src/dg_commons/sim/collision.py:resolve_collision", "src/dg_commons/sim/collision.py:resolve_collision_with_environment", "src/dg_commons/sim/collision_utils.py:compute_impact_geometry", "src/dg_commons/sim/collision_utils.py:compute_impulse_response", "src/dg_commons/sim/models/vehicle.py:VehicleModel.update", "src/dg_commons/sim/models/vehicle.py:VehicleModel.get_velocity", "src/dg_commons/sim/models/rocket.py:RocketModel.get_velocity", "src/dg_commons/sim/models/spaceship.py:SpaceshipModel.get_velocity", "src/dg_commons/sim/models/pedestrian.py:PedestrianModel.set_velocity", "src/dg_commons/sim/models/obstacles_dyn.py:DynObstacleModel.update"]}
{"id": "C139", "title": "The time limits only cut a simulation short", "statement": "Run the same SimContext with a larger max_sim_time, a larger sim_time_after_collision, or both. As long as the run with the smaller limits is going on, the other one is in the same state after as many steps. If both complete, each player's log of the long run is its log of the short run followed by samples stamped at the end of the short run or later, and the same holds of the collision reports. An exception of the short run is raised by the long one too. A run that stopped within its limits, because nobody is left or all missions are accomplished, is the same with any larger limits.", "quantifier": "all contexts, agents, goals, sensors, models and scenarios, all pairs of limits, all numbers of iterations", "why_tests_cant": "Code that consults a limit anywhere else than in the decision to stop, or in the wrong order, shows only where two runs of different length are compared.", "anchors": ["src/dg_commons/sim/simulator.py:Simulator.run", "src/dg_commons/sim/simulator.py:Simulator.post_update", "src/dg_commons/sim/simulator.py:Simulator._maybe_terminate_simulation", "src/dg_commons/sim/simulator_structures.py:SimParameters"]}
{"id": "C140", "title": "It does not matter which of two colliding players is named first", "statement": "resolve_collision(a, b) and resolve_collision(b, a) leave both players in the same state and return the same report, with the players in the other order and the normal reversed (or return nothing, or raise the same exception).", "quantifier": "all shapes, models, velocities, masses and inertias, all maps, with or without exceptions", "why_tests_cant": "The two arguments go different ways through the code: the normal is oriented from the first one, the second gets the reversed impulse. Whether the two ways agree depends on how the shapes overlap.", "anchors": ["src/dg_commons/sim/collision.py:resolve_collision", "src/dg_commons/sim/collision_utils.py:compute_impact_geometry", "src/dg_commons/sim/collision_utils.py:compute_impulse_response", "src/dg_commons/sim/collision_utils.py:check_who_is_at_fault"]}
{"id": "C141", "title": "Left and right are alike in collisions", "statement": "Mirror two players, the map and the shapes: the collision is resolved as in the mirror, i.e. both get the mirrored velocities and opposite rotations, the report has the mirrored point, normal and shapes with left and right parts exchanged, the same faults and the same energies, or the same exception is raised. The same holds of collisions with static obstacles.", "quantifier": "all shapes, models, velocities, masses and inertias, all maps", "why_tests_cant": "A wrong sign in a cross product, in the orientation of the normal or in a lever arm favours one side; single collisions do not show it.", "anchors": ["src/dg_commons/sim/collision.py:resolve_collision", "src/dg_commons/sim/collision.py:resolve_collision_with_environment", "src/dg_commons/sim/collision_utils.py:compute_impact_geometry", "src/dg_commons/sim/collision_utils.py:velocity_of_P_given_A", "src/dg_commons/sim/collision_utils.py:rot_velocity_after_collision"]}
{"id": "C142", "title": "Collisions of two players at a time do not depend on the order in which the players are listed", "statement": "Take two simulation contexts that differ only in the order in which their dictionaries list the models, players, sensors and missions, with sensors and agents that do not depend on the order of the players in an observation. If nobody collides with two players at the same instant, and two players that collide are placed so that neither contains the other and the line through the crossing points of their outlines passes between their centres, then both runs go through the same times, active players, models, logs and terminations, and report the same collisions; a report may name its two players in the other order, with the normal reversed. Collisions never move a player.", "quantifier": "all pairs of contexts that are permutations of each other, all positive time steps, all models of the library, agents, sensors, goals, maps and numbers of iterations, any number of separate collisions in one iteration", "why_tests_cant": "The loop over pairs resolves collisions in the order of the dictionary and names the earlier player first; that the outcome is nevertheless the same follows from the symmetry of the resolution and from the fact that separate collisions do not disturb each other, for every number and order of players.", "anchors": ["src/dg_commons/sim/simulator.py:Simulator._check_collisions_among_players", "src/dg_commons/sim/simulator.py:Simulator.post_update", "src/dg_commons/sim/collision.py:resolve_collision", "src/dg_commons/sim/collision_utils.py:compute_impact_geometry"]}
{"id": "C143", "title": "Beyond its limits a model does not get further away from them; a collision may put it there", "statement": "Whatever speed (for vehicles: and steering angle; for dynamic obstacles: and lateral speed and yaw rate) a kinematic vehicle, an uncollided pedestrian or a dynamic obstacle has at some time, even beyond its limits, from then on it stays between the smaller of the lower limit and that value and the larger of the upper limit and that value, whatever is commanded; so it never moves further beyond a limit, and never leaves its limits again once inside. The same holds for the yaw rate of spacecraft and the nozzle angle of rockets and spaceships. A vehicle with straight wheels that is faster than its limit and commanded nothing keeps its speed: the limits do not bring it back. That collisions leave the models within their limits is false: a parked default car hit from behind by an obstacle at 30 m/s that respects its own limits leaves at more than 130 km/h.", "quantifier": "all parameters, command signals, initial values and durations; all motions that satisfy the differential equation", "why_tests_cant": "The claim is about the solutions of a differential equation under every command signal and from every initial value, also from those that only a collision produces.", "anchors": ["src/dg_commons/sim/models/model_utils.py:apply_full_acceleration_limits", "src/dg_commons/sim/models/model_utils.py:apply_rot_speed_constraint", "src/dg_commons/sim/models/vehicle.py:VehicleModel.dynamics", "src/dg_commons/sim/models/obstacles_dyn.py:DynObstacleModel.dynamics", "src/dg_commons/sim/collision.py:resolve_collision"]}
