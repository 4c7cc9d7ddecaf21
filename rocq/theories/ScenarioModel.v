(** Model of the import of CommonRoad scenarios, src/dg_commons/sim/scenarios/.  Numbers are
    reals.  What CommonRoad itself does is a record [network] of functions. *)
From Coq Require Import String Reals List Bool ZArith Arith DecimalString.
From Verif Require Import Base R2 GeoModel LaneModel BodyModel.
Import ListNotations.
Open Scope R_scope.
Local Open Scope string_scope.

(** str of an integer.
    Used for [import_step], factory.py:42-67; [candidates_from], utils_dyn_obstacle.py:13-46. *)
Definition str_nat (n : nat) : string := NilZero.string_of_uint (Nat.to_uint n).
Definition str_int (z : Z) : string := NilZero.string_of_int (Z.to_int z).
(** [a in b] for strings.  Used for [candidates_from], utils_dyn_obstacle.py:13-46. *)
Definition str_in (a b : string) : bool := match String.index 0 a b with Some _ => true | None => false end.

(** ObstacleType of CommonRoad, as far as the code looks at it.
    Used for [is_vehicle], model_from_dyn_obstacle.py:90-97; [context], structures.py:30-46. *)
Inductive cr_type := CAR | BICYCLE | TRUCK | BUS | PEDESTRIAN | OTHER (name : string).
(** A state of a trajectory, and a dynamic obstacle: its type, length and width if its shape
    is a rectangle, the vertices of its shape in its own frame, the initial state, and the
    states of its prediction if that is a TrajectoryPrediction.
    Used for [dglane_from_trajectory], utils_dyn_obstacle.py:49-54; [is_dyn_obstacle_static], utils_dyn_obstacle.py:57-66; [infer_lane_from_dyn_obs], utils_dyn_obstacle.py:13-46. *)
Record cr_state := mkS { st_position : vec; st_orientation : R }.
Record dyn_obs := mkDO { do_type : cr_type; do_rectangle : option (R * R); do_shape : list vec; do_position : vec; do_orientation : R; do_velocity : R; do_states : option (list cr_state) }.
(** A static obstacle of CommonRoad: type, shape in its own frame and pose.
    Used for [get_scenario_commonroad_replica], factory.py:18-85. *)
Record stat_obs := mkSO { so_type : cr_type; so_shape : list vec; so_position : vec; so_orientation : R }.

(** dyn_obs.prediction.trajectory.state_list.
    Used for [is_dyn_obstacle_static], utils_dyn_obstacle.py:57-66; [infer_lane_from_dyn_obs], utils_dyn_obstacle.py:13-46. *)
Definition state_list (o : dyn_obs) : result (list cr_state) := match do_states o with Some l => Ok l | None => Err PyAttributeError end.

(** ** utils_dyn_obstacle.py *)
(** is_dyn_obstacle_static, utils_dyn_obstacle.py:57-66. *)
Definition is_dyn_obstacle_static (o : dyn_obs) (tol : R) : result bool :=
  bind (state_list o) (fun l => bind (item_last l) (fun s => Ok (ltb (vdist (do_position o) (st_position s)) tol))).
(** _dglane_from_trajectory, utils_dyn_obstacle.py:49-54. *)
Definition dglane_from_trajectory (states : list cr_state) : lanelet := map (fun s => mkCP (mkSE2T (st_position s) (st_orientation s)) (3 / 2)) states.

(** The lanelet network: the ids of the lanelets at a position; the lanes that begin with a
    lanelet, merged with their successors (each with its id and vertices left, right and
    centre).  Used for [candidates_from], utils_dyn_obstacle.py:13-46. *)
Record network := mkNet { lanelets_at : vec -> list Z; merged_from : Z -> result (list (Z * (list vec * list vec * list vec))) }.

Section Lanes.
(** scipy's minimiser, see [find_along_lane_closest_point_fast]; its tolerance is 0.001
    (the default of lanes.py:158). *)
Variable minimize_scalar : minimizer.
Definition closest_angle (lane : lanelet) (p : vec) : result R := bind (find_along_lane_closest_point_fast minimize_scalar lane p (/ 1000) None) (fun bq => Ok (angle_from_SE2 (snd bq))).
(** [f(x) for x in l], stopping at the first exception.
    Used for [candidates_from], utils_dyn_obstacle.py:13-46. *)
Fixpoint traverse {A B} (f : A -> result B) (l : list A) : result (list B) :=
  match l with [] => Ok [] | x :: r => bind (f x) (fun y => bind (traverse f r) (fun ys => Ok (y :: ys))) end.
(** np.argmin: the first least index.
    Used for [infer_lane_from_dyn_obs], utils_dyn_obstacle.py:13-46. *)
Fixpoint argmin_loop (best : nat) (bv : R) (i : nat) (l : list R) : nat :=
  match l with [] => best | x :: r => if ltb x bv then argmin_loop i x (S i) r else argmin_loop best bv (S i) r end.
Definition argmin (l : list R) : result nat := match l with [] => Err PyValueError | x :: r => Ok (argmin_loop 0 x 1 r) end.
(** infer_lane_from_dyn_obs, utils_dyn_obstacle.py:13-46. *)
Definition candidates_from (net : network) (final_ids : list Z) (init_id : Z) : result (list lanelet) :=
  bind (merged_from net init_id) (fun merged =>
  traverse (fun m => let '(l, r, c) := snd m in from_vertices l r c)
    (filter (fun m => existsb (fun id => str_in (str_int id) (str_int (fst m))) final_ids) merged)).
Definition infer_lane_from_dyn_obs (net : network) (o : dyn_obs) : result lanelet :=
  bind (state_list o) (fun states =>
  bind (item_last states) (fun last =>
  let init_ids := lanelets_at net (do_position o) in
  let final_ids := lanelets_at net (st_position last) in
  match init_ids, final_ids with
  | [], _ | _, [] => Ok (dglane_from_trajectory states)
  | _, _ =>
      bind (traverse (candidates_from net final_ids) init_ids) (fun cs =>
      match concat cs with
      | [] => Ok (dglane_from_trajectory states)
      | [c] => Ok c
      | candidates =>
          bind (traverse (fun lane => bind (closest_angle lane (do_position o)) (fun s' => Ok (Rabs (do_orientation o - s')))) candidates) (fun angles =>
          bind (argmin angles) (item candidates))
      end)
  end)).
(** dglane_from_position, scenarios/utils.py:51-65; negative selections are not modelled. *)
Definition dglane_from_position (net : network) (p : vec) (init_lane_selection succ_lane_selection : nat) : result lanelet :=
  match lanelets_at net p with
  | [] => Err PyAssertionError
  | ids => bind (item ids init_lane_selection) (fun id =>
           bind (merged_from net id) (fun merged =>
           bind (item merged succ_lane_selection) (fun m => let '(l, r, c) := snd m in from_vertices l r c)))
  end.

(** ** model_from_dyn_obstacle.py, convert_from_commonroad.py *)
(** The exceptions: NotSupportedConversion is caught by the factory.
    Used for [infer_model_from_cr_dyn_obstacle], model_from_dyn_obstacle.py:17-87; [model_agent_from_dynamic_obstacle], convert_from_commonroad.py:13-31. *)
Inductive conv (A : Type) := Done (x : A) | NotSupported | Raised (e : exn).
Arguments Done {A}. Arguments NotSupported {A}. Arguments Raised {A}.
Definition lift {A} (r : result A) : conv A := match r with Ok x => Done x | Err e => Raised e end.
Definition cbind {A B} (r : conv A) (f : A -> conv B) : conv B := match r with Done x => f x | NotSupported => NotSupported | Raised e => Raised e end.

(** A model: the initial state (the steering angle of a vehicle), the geometry with mass and
    inertia of a vehicle (None: defaults of the bicycle), and the colour.
    Used for [infer_model_from_cr_dyn_obstacle], model_from_dyn_obstacle.py:17-87; [make_lf_agent], agents/lane_follower.py:25-43. *)
Inductive model :=
| Vehicle (p : vec) (psi vx delta : R) (g : vehicle_geometry) (mass_inertia : option (R * R)) (color : string)
| Pedestrian (p : vec) (psi vx : R).
(** _estimate_car_mass_inertia, model_from_dyn_obstacle.py:90-97. *)
Definition estimate_car_mass_inertia (length width : R) : R * R :=
  let mass := 50 * Rpower (length * width) (16 / 10) in (mass, mass * (length + width) / 6).
Definition is_vehicle (t : cr_type) : bool := match t with CAR | BICYCLE | TRUCK | BUS => true | _ => false end.
(** infer_model_from_cr_dyn_obstacle, model_from_dyn_obstacle.py:17-87. *)
Definition infer_model_from_cr_dyn_obstacle (o : dyn_obs) (color : string) : conv model :=
  if is_vehicle (do_type o) then
    match do_rectangle o with
    | None => Raised PyAssertionError
    | Some (length, width) =>
        let l := length * (7 / 10) in
        cbind (lift (bind (state_list o) (fun s => item s 0))) (fun s0 =>
        let dtheta := st_orientation s0 - do_orientation o in
        if Req_EM_T l 0 then Raised PyZeroDivisionError
        else
          let delta := dtheta / l in
          let w_half := width / 2 * (95 / 100) in
          match do_type o with
          | BICYCLE => Done (Vehicle (do_position o) (do_orientation o) (do_velocity o) delta (mkVG "bicycle" w_half (l / 2) (l / 2)) None color)
          | _ => Done (Vehicle (do_position o) (do_orientation o) (do_velocity o) delta (mkVG "car" w_half (l / 2) (l / 2)) (Some (estimate_car_mass_inertia length width)) color)
          end)
    end
  else match do_type o with
       | PEDESTRIAN => Done (Pedestrian (do_position o) (do_orientation o) (do_velocity o))
       | _ => NotSupported
       end.
(** LFAgent(lane, model_params, model_geo), agents/lane_follower.py:25-43, as far as it can
    fail: SteerController.from_vehicle_params reads delta_max (controllers/steer.py:36-41),
    which the parameters of a pedestrian do not have (models/pedestrian_utils.py:10-16). *)
Definition make_lf_agent (lane : lanelet) (m : model) : result lanelet :=
  match m with Vehicle _ _ _ _ _ _ _ => Ok lane | Pedestrian _ _ _ => Err PyAttributeError end.
(** model_agent_from_dynamic_obstacle, convert_from_commonroad.py:13-31; the agent is given
    by the lane it follows. *)
Definition model_agent_from_dynamic_obstacle (net : network) (o : dyn_obs) (color : string) : conv (model * lanelet) :=
  cbind (infer_model_from_cr_dyn_obstacle o color) (fun m =>
  cbind (lift (infer_lane_from_dyn_obs net o)) (fun lane =>
  cbind (lift (make_lf_agent lane m)) (fun agent => Done (m, agent)))).

(** ** structures.py, factory.py *)
(** What the factory puts into the SimContext: players, models, missions and the static
    obstacles of the DgScenario (structures.py:30-46; no road boundaries). *)
Record context := mkCtx { c_players : list (string * lanelet); c_models : list (string * model); c_statics : list (cr_type * list vec); c_missions : list (string * unit) }.
(** The loop over the dynamic obstacles, factory.py:42-67; the state is players, models and
    static_obstacles. *)
Definition loop_state : Type := list (string * lanelet) * list (string * model) * list (cr_type * list vec).
Definition import_step (net : network) (ego_player : option string) (i : nat) (o : dyn_obs) (st : loop_state) : result loop_state :=
  let '(players, models, statics) := st in
  match do_states o with
  | None => Err PyAssertionError
  | Some _ =>
      bind (is_dyn_obstacle_static o (2 / 10)) (fun static =>
      if static then
        let shape := apply_SE2_to_shapely_geo (do_shape o) (SE2_from_translation_angle (do_position o) (do_orientation o)) in
        Ok (players, models, (statics ++ [(do_type o, shape)])%list)
      else
        let p_name := "P" ++ str_nat i in
        let is_ego := match ego_player with Some e => String.eqb p_name e | None => false end in
        let p_name := if is_ego then "Ego" else p_name in
        match model_agent_from_dynamic_obstacle net o (if is_ego then "firebrick" else "royalblue") with
        | Done (m, agent) => Ok (aset String.eqb players p_name agent, aset String.eqb models p_name m, statics)
        | NotSupported => Ok st
        | Raised e => Err e
        end)
  end.
Fixpoint import_loop (net : network) (ego_player : option string) (i : nat) (l : list dyn_obs) (st : loop_state) : result loop_state :=
  match l with [] => Ok st | o :: r => bind (import_step net ego_player i o st) (import_loop net ego_player (S i) r) end.
(** get_scenario_commonroad_replica, factory.py:18-85, on a scenario that has been read.
    [assign_missions] is not used. *)
Definition get_scenario_commonroad_replica (net : network) (dynamic : list dyn_obs) (static : list stat_obs) (ego_player : option string) (assign_missions : bool) : result context :=
  bind (import_loop net ego_player 0 dynamic ([], [], [])) (fun st =>
  let '(players, models, statics) := st in
  let statics := (statics ++ map (fun s => (so_type s, so_shape s)) static)%list in
  if forallb (fun k => existsb (String.eqb k) (akeys players)) (akeys models) && forallb (fun k => existsb (String.eqb k) (akeys models)) (akeys players)
  then Ok (mkCtx players models statics []) else Err PyAssertionError).
End Lanes.
Arguments Done {A}. Arguments NotSupported {A}. Arguments Raised {A}.

(** ** DgScenario.__post_init__, structures.py:30-46 *)
Section DgScenario.
Context {Scen Obs Shape : Type}.
Variable shape_of : Obs -> Shape.            (* sobstacle.shape *)
Variable of_bound : Shape -> Obs.            (* StaticObstacle(lanelet_bound) *)
Variable bounds : Scen -> R -> result (list Shape).  (* build_road_boundary_obstacle(..)[0] *)
(** The static obstacles and the shapes in the STRtree.
    Used for DgScenario, scenarios/structures.py:15-51. *)
Definition dg_scenario (scenario : option Scen) (static_obstacles : option (list Obs)) (use_road_boundaries : bool) (buffer : R) : result (list Obs * list Shape) :=
  let given := match static_obstacles with Some l => l | None => [] end in
  bind (match use_road_boundaries, scenario with
        | true, Some s => if leb 0 buffer then bind (bounds s buffer) (fun bs => Ok (given ++ map of_bound bs)%list) else Err PyAssertionError
        | _, _ => Ok given
        end) (fun all => Ok (all, map shape_of all)).
End DgScenario.

(** ** load_commonroad_scenario, scenarios/utils.py:21-48 *)
(** name.endswith(suffix).  Used for scenarios/utils.py:35. *)
Definition ends_with (name suffix : string) : bool :=
  let k := (String.length name - String.length suffix)%nat in (String.length suffix <=? String.length name)%nat && String.eqb (String.substring k (String.length suffix) name) suffix.
(** The path chosen, given what os.walk lists: directories with their files.  The break
    leaves the inner loop only.  The absolute path is not computed.
    scenarios/utils.py:36-41. *)
Fixpoint find_file (scenario_name : string) (walk : list (string * list string)) (scenario_path : option string) : option string :=
  match walk with
  | [] => scenario_path
  | (root, files) :: rest => find_file scenario_name rest (if existsb (String.eqb scenario_name) files then Some (root ++ "/" ++ scenario_name) else scenario_path)
  end.
(** FileNotFoundError is [PyOther].  scenarios/utils.py:34-46. *)
Definition scenario_file (scenario_name : string) (walk : list (string * list string)) : result string :=
  let scenario_name := if ends_with scenario_name ".xml" then scenario_name else scenario_name ++ ".xml" in
  match find_file scenario_name walk None with Some p => Ok p | None => Err PyOther end.
