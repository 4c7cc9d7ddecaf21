(** Model of src/dg_commons/sim/agents/agent.py and lane_follower.py. *)
From Coq Require Import QArith Qcanon ZArith List Bool Arith.
From Verif Require Import Base Num SeqModel SimulatorModel VehState CtrlModel.
Import ListNotations.
Open Scope Qc_scope.

(** ** agent.py *)

(** NPAgent.get_commands, agent.py:50-52 (the constructor only accepts a
    sequence; on_episode_init does nothing). *)
Definition np_get_commands {X F U} (plan : seq U) (o : simobs X F) : result U := at_or_previous plan (o_time o).

(** The argument a policy is called with: Python does not check it.  It is
    either a state or a PlayerObservations object (state and occupancy).
    Used for [policy_agent], agent.py:60-69. *)
Inductive policy_arg (X F : Type) := ArgState (x : X) | ArgObs (x : X) (f : F).
Arguments ArgState {X F}. Arguments ArgObs {X F}.

(** PolicyAgent, agent.py:60-69: the policy and the name set by
    on_episode_init ([None] before it; no player is called None). *)
Record policy_agent (X F U : Type) := mkPA { pa_policy : policy_arg X F -> result U; pa_name : option player }.
Arguments mkPA {X F U}. Arguments pa_policy {X F U}. Arguments pa_name {X F U}.

(** on_episode_init of PolicyAgent, agent.py:64-65. *)
Definition pa_init {X F U} (a : policy_agent X F U) (name : player) : policy_agent X F U := mkPA (pa_policy a) (Some name).

(** get_commands of PolicyAgent, agent.py:67-69. *)
Definition pa_get_commands {X F U} (a : policy_agent X F U) (o : simobs X F) : result U :=
  match pa_name a with
  | None => Err PyKeyError
  | Some n => match dgetE (o_players o) n with
              | Err e => Err e
              | Ok (x, f) => pa_policy a (ArgObs x f)
              end
  end.

(** ** lane_follower.py *)

(** External code: the attributes of the vehicle state, the lane, the pure
    pursuit controller (its parameters are [PP]; the controller itself is
    modelled in PursuitModel.v) and the vehicle geometry [G].
    Used for LFAgent, lane_follower.py:20-102. *)
Record lf_env (X PP G Lane : Type) := mkLF {
  lf_kin : kin X;
  (* .vx and .delta of a VehicleState; None: AttributeError *)
  lf_attr : X -> option (Qc * Qc);
  (* lane.lane_pose_from_SE2_generic(pose).along_lane of the state's pose *)
  lf_along : Lane -> X -> result Qc;
  (* PurePursuit.from_model_geometry *)
  lf_pp_of_geo : G -> PP;
  (* get_desired_steering of a controller with these parameters, path, pose,
     along-path coordinate and speed *)
  lf_steering : PP -> option Lane -> X -> Qc -> Qc -> result Qc }.
Arguments mkLF {X PP G Lane}. Arguments lf_kin {X PP G Lane}. Arguments lf_attr {X PP G Lane}.
Arguments lf_along {X PP G Lane}. Arguments lf_pp_of_geo {X PP G Lane}. Arguments lf_steering {X PP G Lane}.

(** LightsValues, vehicle_ligths.py:35-37. *)
Inductive lights := NoLights | HeadLights | TurnLeft | TurnRight | Hazard.

Section LF.
Context {X F PP G Lane : Type} (env : lf_env X PP G Lane).

(** LFAgent, lane_follower.py:25-48.  [a_pp_speed] is the speed last given to
    the pure pursuit controller; [a_path] the lane given to it on episode
    init. *)
Record lf_agent := mkLFA {
  a_lane : Lane; a_speed : pid; a_sb : sb_param; a_steer : pid; a_pp : PP; a_path : option Lane; a_pp_speed : Qc;
  a_name : option player; a_emergency : bool; a_lights : seq lights }.

(** LFAgent(lane, model_params, model_geo, speed_behavior, pure_pursuit),
    lane_follower.py:25-43.  [order] is the iteration order of the frozenset
    LightsValues, which depends on the interpreter's string hashing. *)
Definition lf_new (order : list lights) (lane : Lane) (vp : vparams) (geo_ : G) (sb : option sb_param) (pure_pursuit : option PP)
  : result lf_agent :=
  match speed_controller vp with Err e => Err e | Ok spd =>
  match steer_controller vp with Err e => Err e | Ok str =>
  match new_seq true [0; qz 2; qz 4; qz 6; qz 8] order with Err e => Err e | Ok ls =>
  Ok (mkLFA lane spd (match sb with None => sb_default | Some b => b end) str (lf_pp_of_geo env geo_) None 0 None false ls)
  end end end.

(** on_episode_init, lane_follower.py:45-48. *)
Definition lf_init (a : lf_agent) (name : player) : lf_agent :=
  mkLFA (a_lane a) (a_speed a) (a_sb a) (a_steer a) (a_pp a) (Some (a_lane a)) (a_pp_speed a) (Some name) (a_emergency a) (a_lights a).

(** get_commands, lane_follower.py:50-75.  (If it raises, the half-updated
    agent is not modelled.) *)
Definition lf_get_commands (a : lf_agent) (o : simobs X F) : result (lf_agent * (vcmd * lights)) :=
  match a_name a with None => Err PyKeyError | Some n =>
  match dgetE (o_players o) n with Err e => Err e | Ok (x, _) =>
  match lf_attr env x with None => Err PyAttributeError | Some (vx, delta) =>
  let spd := update_measurement (a_speed a) vx in
  let str := update_measurement (a_steer a) delta in
  match lf_along env (a_lane a) x with Err e => Err e | Ok along =>
  match get_speed_ref (lf_kin env) (a_sb a) n (Some (o_players o)) with Err e => Err e | Ok (ref0, emergency) =>
  let latched := emergency || a_emergency a in
  let ref := if latched then 0 else ref0 in
  let spd := update_reference spd ref in
  let '(spd, acc) := get_control spd (o_time o) in
  match lf_steering env (a_pp a) (a_path a) x along ref with Err e => Err e | Ok delta_ref =>
  let str := update_reference str delta_ref in
  let '(str, ddelta) := get_control str (o_time o) in
  match at_or_previous (a_lights a) (o_time o) with Err e => Err e | Ok l =>
  Ok (mkLFA (a_lane a) spd (a_sb a) str (a_pp a) (a_path a) ref (a_name a) latched (a_lights a), (mkVC acc ddelta, l))
  end end end end end end end.
End LF.
Arguments mkLFA {PP Lane}. Arguments a_lane {PP Lane}. Arguments a_speed {PP Lane}. Arguments a_sb {PP Lane}.
Arguments a_steer {PP Lane}. Arguments a_pp {PP Lane}. Arguments a_path {PP Lane}. Arguments a_pp_speed {PP Lane}.
Arguments a_name {PP Lane}. Arguments a_emergency {PP Lane}. Arguments a_lights {PP Lane}.
