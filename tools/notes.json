{
 "C01": {
  "status": "proved",
  "note": "Finite timestamps. For NaN/infinite floats the claim is false (refuted theorems)."
 },
 "C09": {
  "status": "proved",
  "note": "For sequences created through a subscripted class; without a type argument iteration raises AttributeError (refuted theorem)."
 },
 "C25": {
  "status": "proved",
  "note": "Observation contents, equality across players and finality. Independence of agents' internal effects on each other is by the value semantics of the model (get_state is a deep copy)."
 },
 "C29": {
  "status": "partial",
  "note": "False of the code for a reused object (two refuted theorems); proved for distinct Simulator objects sharing class attributes."
 },
 "C14": {
  "status": "partial",
  "note": "Acceptance, result and associativity proved. The last clause (no non-duplicate sample of b is lost) is false: refuted theorem."
 },
 "C15": {
  "status": "proved",
  "note": "Non-empty trajectories, n a natural number; rounding is not modelled."
 },
 "C16": {
  "status": "partial",
  "note": "False of the code for every trajectory with two or more samples (TypeError): refuted theorem; proved for shorter ones."
 },
 "C17": {
  "status": "partial",
  "note": "add_edge effect, acyclicity, enumeration per leaf, transitions and commands along shortest paths proved for any path search meeting the networkx contract. Three clauses are false of the code (refuted theorems)."
 },
 "C71": {
  "status": "partial",
  "note": "Proved for functions; false for callables without __qualname__ (refuted theorem)."
 },
 "C18": {
  "status": "proved",
  "note": "For every caller-supplied dynamics, dt>0 and n_steps>=1; the returned set is modelled as the list of added trajectories."
 },
 "C19": {
  "status": "partial",
  "note": "Grid and limits proved; the last clause (building from any vehicle's parameters succeeds) is false: refuted theorem for the default car, truck and bicycle."
 },
 "C31": {
  "status": "proved",
  "note": "With the obstacles of the scenario the filter was first used with. If the observed scenario object changes later the filter keeps the old obstacles (refuted theorem)."
 },
 "C33": {
  "status": "partial",
  "note": "Exact characterisation proved for every threshold. The threshold-0 clause is false at distance 0 (refuted) and proved otherwise (_partial)."
 },
 "C34": {
  "status": "partial",
  "note": "Open-loop clause proved. PolicyAgent hands the whole observation entry, not the state, to the policy: refuted theorem, and _partial theorem for what it does."
 },
 "C36": {
  "status": "partial",
  "note": "All limits, the control law and the equal-time clause proved for every history. The proportional-only clause needs antiwindup limits that contain 0, which the constructor does not require: refuted and _partial."
 },
 "C73": {
  "status": "partial",
  "note": "False for the lights (refuted); proved for acceleration and steering rate (_partial)."
 },
 "C74": {
  "status": "partial",
  "note": "Proved for speed_behavior (_partial); the pure_pursuit argument is ignored (refuted)."
 },
 "C38": {
  "status": "partial",
  "note": "Lookahead bounds (checked limits), steering law and sign, error without pose or path proved. Unchecked limits break the bounds, and a goal point straight ahead yields a small non-zero steering because of the 1e-9 offset: refuted theorems; its size is bounded in the _partial theorem."
 },
 "C60": {
  "status": "proved",
  "note": "All clauses proved over the reals. Beyond the statement: applying a pose to an empty list of points fails (refuted theorem)."
 },
 "C75": {
  "status": "partial",
  "note": "Symmetry, non-negativity and frame independence proved (_partial). Zero-iff-equal and the triangle inequality are false of the code (refuted theorems)."
 },
 "C40": {
  "status": "proved",
  "note": "For two bodies of finite mass and for an infinitely heavy obstacle. For an obstacle of finite mass, which the constructor accepts, the law fails (refuted theorem). shapely's geometry and the models are universally quantified."
 },
 "C42": {
  "status": "partial",
  "note": "True kinetic energy proved never to grow. The reported energy differences ignore rotation and can have a positive sum (refuted theorem)."
 },
 "C43": {
  "status": "proved",
  "note": "Models are any objects whose collision flag does not affect geometry; that set_velocity sets what get_velocity returns is C55. If impact locations cannot be found the models stay flagged (C43_exception_after_flagging)."
 },
 "C44": {
  "status": "partial",
  "note": "Unit, orientation, chord proved whenever a normal exists; existence proved for distinct crossing points; concentric bodies give nan (refuted theorem)."
 },
 "C45": {
  "status": "partial",
  "note": "Exact characterisation proved; where the map has no lane both players are declared at fault (refuted theorem)."
 },
 "C46": {
  "status": "proved",
  "note": "For time-ordered reports with data on every player. Out of time order associativity fails, and get_empty is not neutral (refuted theorems)."
 },
 "C48": {
  "status": "partial",
  "note": "Lengths, sum, detour and transparency of the cache for unchanged lanes are proved; false after the control points of a queried lane are edited (refuted theorem)."
 },
 "C79": {
  "status": "partial",
  "note": "Soundness proved for every minimiser; agreement with the lane pose is false at the end of the lane (refuted theorem)."
 },
 "C85": {
  "status": "partial",
  "note": "True for an even number of samples taken every 0.1 s. For an odd number a constant gives a result too large by n/(n-1), and the timestamps are ignored (refuted theorems)."
 },
 "C87": {
  "status": "proved",
  "note": "Proved as stated. Beyond the statement: agents whose centres move apart are skipped although their footprints are about to meet (refuted theorem)."
 },
 "C64": {
  "status": "partial",
  "note": "The search for the lane need not return (refuted theorem); it returns within as many rounds as there are lanes or never, and always if the network has no loops and no gaps (partial theorem). The first-time clause is proved."
 },
 "C65": {
  "status": "proved",
  "note": "Proved as stated, with the IEEE sum of the time steps (3.0000000000000013 s for the last one). Beyond the statement: contact between two steps is missed (refuted theorem for the reading without steps)."
 },
 "C66": {
  "status": "partial",
  "note": "Proved when every logged player has a goal; otherwise KeyError (refuted theorem)."
 },
 "C86": {
  "status": "partial",
  "note": "C86_ref_lane_refuted: with control points more than a metre apart no position on the lane fulfils a lane goal more than n + 10 metres along (goals.py:61). C86_lane_end_refuted: inflation radii under 0.1 m exclude the end of the lane. C86_plot_refuted: PoseGoal.get_plottable_geometry raises TypeError."
 },
 "C84": {
  "status": "partial",
  "note": "wheels are inside only unsteered and with a long enough front; the mesh of the differential drive robot covers only part of one quarter of it (refuted)"
 },
 "C67": {
  "status": "proved",
  "note": "Proved as stated for every right ray tracer. Beyond the statement: range 0 passes the checks and then fails (C67_zero_range_refuted), fields of view under the angular resolution or negative give no polygon (C67_narrow_refuted, C67_negative_fov_refuted), obstacles between two rays are not seen (C67_between_rays_refuted)."
 },
 "C69": {
  "status": "partial",
  "note": "The vertices are truncated to whole numbers, so only C69_random_partial holds (up to 1 per coordinate); refuted: a polygon of average radius under 1/2 is a point, vertices beyond twice the radius, all vertices equal with irregularity 1."
 },
 "C70": {
  "status": "partial",
  "note": "C70_history gives the exact colours after any history; C70_refuted: a vehicle that does not brake shows brighter rear lights once any vehicle has braked, because the shared table is changed in place (simulator_animation.py:236-240)."
 },
 "C68": {
  "status": "partial",
  "note": "Classification, names, poses and static obstacles proved for every import that succeeds; sufficient conditions for success. C68_static_pose_refuted: static obstacles of the scenario are not moved to their pose (factory.py:69-75). C68_pedestrian_refuted: any walking pedestrian makes the import fail. C68_loop_refuted, C68_ego_refuted, C68_missions_refuted."
 },
 "C88": {
  "status": "partial",
  "note": "C88_wrong_lane_refuted: ids are compared as substrings of decimal strings (utils_dyn_obstacle.py:29). C88_angle_refuted: orientations are subtracted without wrapping (utils_dyn_obstacle.py:42)."
 },
 "C89": {
  "status": "partial",
  "note": "C89_size_refuted: cars come out 0.875 L + 0.6 long and 0.95 W + 0.2 wide. C89_steering_refuted: an orientation that wraps gives a steering angle beyond 2 rad."
 },
 "C90": {
  "status": "proved",
  "note": "C90_path_refuted: a name with a directory part is never found, since names of files are compared."
 },
 "C92": {
  "status": "partial",
  "note": "C92_fallback_refuted: the documented empty name fails with KeyError and the fallback to automatic scaling is never reached (simulator_animation.py:181-220)."
 },
 "C93": {
  "status": "partial",
  "note": "C93_last_instant_refuted: the last interval is never shown. C93_late_start_refuted: frame times start at 0 instead of the beginning of the log. C93_real_time_refuted: the frame rate is rounded up."
 },
 "C94": {
  "status": "proved",
  "note": "Proved as stated. Beyond the statement: the docstring restricts the set to players that collided with the ego; all pairs are included (C94_with_the_ego_refuted)."
 },
 "C95": {
  "status": "partial",
  "note": "C95_later_refuted: wheels and lights that are first asked for in a later frame are not drawn or fail with TypeError."
 },
 "C96": {
  "status": "partial",
  "note": "C96_requested_length_refuted: RocketGeometry.default ignores the length it is given. C96_thrusters_refuted: the thrusters of a spacecraft are outside its footprint. C96_rocket_torque_refuted: the torque ignores the lateral offset of the nozzles. C96_flames_refuted: flames follow the command, not the limited thrust that acts."
 },
 "C97": {
  "status": "partial",
  "note": "C97_holes_refuted: with a zorder above 1 (always so in the arena) holes are painted over. C97_parts_refuted: the parts of a MultiPolygon after the first are painted in the background colour. C97_documented_refuted: MultiPoint, MultiLineString and GeometryCollection, documented as supported, are TypeErrors with shapely 2."
 },
 "C98": {
  "status": "partial",
  "note": "C98_pose_goal_refuted: a player with a PoseGoal makes the drawing fail. C98_late_refuted: trajectories first reported after the first frame are never drawn. C98_stale_refuted: trajectories that are not reported any more stay in the picture."
 },
 "C99": {
  "status": "partial",
  "note": "C99_other_figure_refuted: with a figure that is not pyplot's current one the curves are drawn elsewhere. C99_empty: a log without states or commands is an IndexError."
 },
 "C100": {
  "status": "partial",
  "note": "C100_holes_refuted: the border of a hole of the road is blocked also at open ends. C100_closed_refuted: a road without open ends is an AttributeError (a single LinearRing has no .geoms). C100_zero_buffer_refuted: so is buffer 0, which DgScenario allows. C100_bounds_partial and C100_ends_open_partial: up to the borders of the holes. C100_defined_partial: assumes that the gates cut every part into several pieces."
 },
 "C101": {
  "status": "partial",
  "note": "C101_unresolved_refuted: reports of collisions that could not be resolved (get_empty) fail with AttributeError. C101_turn_refuted: the arrow of the rotation is the same for both senses of rotation."
 },
 "C102": {
  "status": "partial",
  "note": "C102_normalised_refuted: the angle is not wrapped to (-pi, pi]."
 },
 "C103": {
  "status": "proved",
  "note": "Beyond the statement: C103_heading_between_refuted: headings between samples do not move along, because wrapped headings are averaged. C103_result_class_refuted: the result is a DgSampledSequence, so as_path and moving again are AttributeErrors."
 },
 "C105": {
  "status": "proved",
  "note": "Beyond the statement: C105_obstacle_refuted: the limits of the forward speed of dynamic obstacles also bound the lateral speed, so with different limits forwards and backwards left and right differ."
 },
 "C106": {
  "status": "proved",
  "note": "Beyond the statement: C106_limits_refuted: the integrated prediction does not respect the limits of speed and steering."
 },
 "C107": {
  "status": "partial",
  "note": "C107_rear_axle_refuted: the line starts at the rear axle only if the centre of mass is halfway between the axles (C107_line_of_sight proves that case). C107_before_commands_refuted: TypeError before the first commands. C107_given_controller_refuted: the controller given to the constructor is ignored."
 },
 "C49": {
  "note": "Away from the end of a lane every flag is right; at the lane parameter of the end none of them is set (refuted theorem)."
 },
 "C51": {
  "note": "Clipping is proved; what is clipped may be zeroed afterwards, and zero may be outside the acceleration limits (refuted theorem)."
 },
 "C53": {
  "note": "Round trips of numbers are proved; lights are lost on the way and spacecraft commands raise a KeyError (refuted theorems)."
 },
 "C54": {
  "note": "The vector space laws are proved for the other classes; multiplication from the left of a dynamic vehicle state is wrong in vy and dpsi (refuted theorem)."
 },
 "C55": {
  "note": "Proved for full states; vehicles keep only the forward speed, dynamic vehicles ignore the rotation, pedestrians take it for the forward speed, differential drive robots report zero (refuted theorems)."
 },
 "C56": {
  "note": "Proved for the other models; cars and obstacles still obey commands after a collision (refuted theorems)."
 },
 "C58": {
  "note": "Proved for limits with non-negative thrust; the default spaceship may have negative thrust and gain mass (refuted theorem)."
 },
 "C59": {
  "note": "Proved for both tyre models; the default four-parameter tyres are built with three parameters (refuted theorem)."
 },
 "C76": {
  "note": "Proved on the lane; outside it one unit of lane parameter is 0.1 m (refuted theorem)."
 },
 "C77": {
  "note": "Proved where no wrap-around lies between the two centre points; across it the fast heading is the plain difference of angles (refuted theorem)."
 },
 "C81": {
  "note": "Proved for the other models and any differentiable solution; spacecraft ignore speed limits and dynamic vehicles exceed them (refuted theorems)."
 },
 "C82": {
  "note": "Proved for the other models; dynamic vehicles below 0.1 m/s, rotating pedestrians, rockets' frame and differential drives differ from the kinematics (refuted theorems)."
 },
 "C110": {
  "note": "New objects at each instant are proved; within an instant agents share them, and the log of commands holds the agents' own objects (refuted theorems)."
 },
 "C118": {
  "note": "Pedestrians refuse other states when made and obstacles invalid shapes; all other models accept any object and set_state checks nothing."
 },
 "C120": {
  "note": "Vehicles take the forward part of the computed velocity only. No energy is gained with straight wheels, head-on impacts bounce; a car hit sideways stays, one with turned wheels can gain energy, one that hits a wall with its corner drives on into it (refuted theorems)."
 },
 "C121": {
  "note": "Dynamic vehicles take the velocity but not the rotation; pedestrians take the rotation for their forward speed; differential drive robots take nothing (refuted theorems)."
 },
 "C128": {
  "status": "proved",
  "note": "The statement itself names the three expectations that fail (refuted theorems); the rest is proved for every exact motion."
 },
 "C130": {
  "status": "partial",
  "note": "Proved with error bounds. Refuted: interpolation between two equal samples can differ from both; with Decimal timestamps the weight can exceed 1 and the difference of two timestamps can be 0 as a float (ZeroDivisionError); upsampling between timestamps that are too close raises ValueError."
 },
 "C138": {
  "status": "partial",
  "note": "Proved for every model but the rocket and for obstacles of infinite moment of inertia (the default of static obstacles); both exceptions are refuted on the model. That shapely and the agents, goals and sensors are themselves equivariant is a hypothesis (library_everywhere, company_everywhere)."
 },
 "C139": {
  "status": "proved",
  "note": "Proved for every world. The long run may of course raise an exception after the end of the short one."
 },
 "C140": {
  "status": "partial",
  "note": "Proved when the line through the crossing points passes between the centres. Refuted when one player is inside the other (CollisionException in one order only, C140_inside_refuted) and when one reaches more than half into the other (a player that drives out is hit again in one order and left alone in the other, C140_same_side_refuted)."
 },
 "C141": {
  "status": "partial",
  "note": "Proved if the centre of the first player is not on the line through the crossing points and, for obstacles, if they do not turn (the default). Both conditions are needed: C141_on_line_refuted, C141_obstacle_refuted."
 },
 "C143": {
  "status": "partial",
  "note": "Proved for the quantities that have a limit in the dynamics. That the limits hold after a collision is refuted (C143_collision_refuted). The speed of spacecraft, and of vehicles with tyre forces, is not bounded this way (C81_spacecraft_speed_refuted, C81_vehicle_dyn_refuted)."
 }
}