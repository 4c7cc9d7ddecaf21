(* Generated from tools/Raise.src by tools/gen_props.py. *)
(** Which exception is raised when: properties of the failures of the interface. *)
From Coq Require Import Reals Lra String List Bool ZArith QArith Qcanon Lia.
From Verif Require Import Base Num R2 VehState.
From Verif Require SeqModel TrajModel CollModel GeoModel DataModel EvalModel DrawModel BodyModel SimulatorModel AgentModel FollowModel AnimModel LaneModel PursuitModel ScenarioModel CtrlModel SimulatorWorld.
From Verif Require Import DictLemmas.
Import ListNotations.
Open Scope string_scope.
From Verif Require Import RaiseMain.

(** ** C129 *)

(** Sequences: a timestamp that is no number is refused with the library's ZValueError;
    accumulating needs the subscripted class, and what integration and accumulation give
    can be accumulated again. *)
Theorem C129_sequences :
  (forall X ts (vs : list X), length ts = length vs -> In SeqModel.SOther ts -> SeqModel.ctor true ts vs = Err ZValueError) /\
  (forall s, SeqModel.typed s = false -> SeqModel.seq_accumulate s = Err PyAttributeError) /\
  (forall s s', SeqModel.seq_accumulate s = Ok s' -> SeqModel.typed s' = true) /\
  (forall s s', SeqModel.seq_integrate s = Ok s' -> length (SeqModel.vals s) <> 1%nat -> SeqModel.typed s' = true).
Proof. exact C129_sequences_pf. Qed.
Print Assumptions C129_sequences.

Example C129_sequences_ex : SeqModel.ctor true [SeqModel.SInt 0; SeqModel.SOther] [0%nat; 1%nat] = Err ZValueError /\
  SeqModel.seq_accumulate (SeqModel.mkSeq [0%Qc; 1%Qc] [1%Qc; 1%Qc] false) = Err PyAttributeError /\
  match SeqModel.seq_accumulate (SeqModel.mkSeq [0%Qc; 1%Qc] [1%Qc; 1%Qc] true) with Ok s => SeqModel.typed s = true | Err _ => False end.
Proof. split; [|split]; vm_compute; reflexivity. Qed.

(** Graphs of trajectories: a path over a state without time is a TypeError, graphs with
    cycles and graphs without exactly one root an AssertionError, extending a node that
    was added without generation a KeyError; adding a node again without generation
    keeps the one it has. *)
Theorem C129_graphs :
  (forall N g s t nodes x, TrajModel.path_of N g s t = Ok nodes -> In (TrajModel.Bare x) nodes -> TrajModel.get_trajectory N g s t = Err PyTypeError) /\
  (forall N g, TrajModel.nx_is_dag N g = false \/ length (TrajModel.roots g) <> 1%nat -> TrajModel.get_all_trajectories N g = Err PyAssertionError /\ TrajModel.get_all_transitions N g = Err PyAssertionError) /\
  (forall g states tr cmds t0 t1 x0 x1, SeqModel.get_start states = Ok t0 -> SeqModel.get_end states = Ok t1 -> SeqModel.at_ states t0 = Ok x0 -> SeqModel.at_ states t1 = Ok x1 ->
    aget TrajModel.node_eqb (TrajModel.g_nodes g) (TrajModel.Timed t0 x0) = Some None -> TrajModel.has_node g (TrajModel.Bare x1) = false -> TrajModel.add_edge g states tr cmds = Err PyKeyError) /\
  (forall g n, TrajModel.has_node g n = true -> TrajModel.add_node g n None = g).
Proof. exact C129_graphs_pf. Qed.
Print Assumptions C129_graphs.

Example C129_graphs_ex : let x := mkVS 0 0 0 0 0 in let n := TrajModel.Timed 0 x in let m := TrajModel.Bare x in
  let N := TrajModel.mkNX (fun _ => true) (fun _ _ _ => true) (fun _ u v => [u; v]) in let g := TrajModel.mkG [(n, None); (m, None)] [] in
  TrajModel.get_trajectory N g n m = Err PyTypeError /\ length (TrajModel.roots g) = 2%nat /\ TrajModel.get_all_trajectories N g = Err PyAssertionError /\
  TrajModel.add_edge (TrajModel.mkG [(n, None)] []) (SeqModel.mkSeq [0%Qc; 1%Qc] [x; mkVS 1 0 0 0 0] true) (SeqModel.mkSeq [] [] true) None = Err PyKeyError.
Proof. cbv zeta. split; [|split; [|split]]; vm_compute; reflexivity. Qed.

(** The geometry of impacts, for shapes that neither only touch nor contain each other: an
    intersection in several pieces whose enclosing rectangle has no exterior is an
    AttributeError; an intersection that is neither polygon, line nor collection is a
    CollisionException; nothing else is ever raised. *)
Theorem C129_impacts : forall Sh (sh : CollModel.shapely Sh) a b, CollModel.touches sh a b = false -> CollModel.contains sh a b = false ->
  (CollModel.intersection sh a b = CollModel.IMulti None -> CollModel.compute_impact_geometry sh a b = Err PyAttributeError) /\
  (CollModel.intersection sh a b = CollModel.IOther -> CollModel.compute_impact_geometry sh a b = Err CollisionException) /\
  (forall e, CollModel.compute_impact_geometry sh a b = Err e -> e = CollisionException \/ e = PyAttributeError).
Proof. exact C129_impacts_pf. Qed.
Print Assumptions C129_impacts.

Example C129_impacts_ex : let sh i := CollModel.mkShp (fun _ _ : nat => false) (fun _ _ => false) (fun _ _ => true) (fun _ => (0, 0)%R) (fun _ _ => i) (fun _ _ => true) (fun _ => true) (fun x => Ok x) in
  CollModel.compute_impact_geometry (sh (CollModel.IMulti None)) 0%nat 1%nat = Err PyAttributeError /\
  CollModel.compute_impact_geometry (sh CollModel.IOther) 0%nat 1%nat = Err CollisionException.
Proof. cbv zeta. split; apply C129_impacts; reflexivity. Qed.

(** Lanes: a lane that is not in the network any more, or whose successor is not, is an
    AttributeError; a lane without successor has none; every question to a lane without
    control points beyond its end is an IndexError. *)
Theorem C129_lanes :
  (forall n d c r i j, d = c :: r -> (exists c1 r', r = c1 :: r' /\ EvalModel.n_at n (GeoModel.t_p (LaneModel.cp_q c1)) = i :: j) -> (forall l, In l (EvalModel.n_lanes n) -> EvalModel.cr_id l <> i) ->
    EvalModel.get_lanelet_from_dglanelet n d = Err PyAttributeError) /\
  (forall next n d l, EvalModel.get_lanelet_from_dglanelet n d = Ok l ->
    (next l = [] -> EvalModel.get_next_dglane next n d = Ok None) /\
    (forall i r, next l = i :: r -> (forall l', In l' (EvalModel.n_lanes n) -> EvalModel.cr_id l' <> i) -> EvalModel.get_next_dglane next n d = Err PyAttributeError)) /\
  (forall beta, LaneModel.radius [] beta = Err PyIndexError /\ LaneModel.center_point [] beta = Err PyIndexError /\ LaneModel.center_point_fast [] beta = Err PyIndexError).
Proof. exact C129_lanes_pf. Qed.
Print Assumptions C129_lanes.

Example C129_lanes_ex : let c := LaneModel.mkCP (GeoModel.mkSE2T (0, 0)%R 0%R) 1%R in let d := [c; c] in let l := EvalModel.mkCR 1 [7%nat] [] d in
  EvalModel.get_lanelet_from_dglanelet (EvalModel.mkNet [l] (fun _ => [2%nat])) d = Err PyAttributeError /\
  EvalModel.get_next_dglane EvalModel.cr_succ (EvalModel.mkNet [l] (fun _ => [1%nat])) d = Err PyAttributeError /\
  EvalModel.get_next_dglane EvalModel.cr_pred (EvalModel.mkNet [l] (fun _ => [1%nat])) d = Ok None.
Proof. cbv zeta. split; [|split]; reflexivity. Qed.

(** Imported obstacles: without a predicted trajectory the lane cannot be inferred
    (AttributeError), with an empty one it is an IndexError. *)
Theorem C129_obstacles : forall minimize net o tol,
  (ScenarioModel.do_states o = None -> ScenarioModel.infer_lane_from_dyn_obs minimize net o = Err PyAttributeError /\ ScenarioModel.is_dyn_obstacle_static o tol = Err PyAttributeError) /\
  (ScenarioModel.do_states o = Some [] -> ScenarioModel.infer_lane_from_dyn_obs minimize net o = Err PyIndexError /\ ScenarioModel.is_dyn_obstacle_static o tol = Err PyIndexError).
Proof. exact C129_obstacles_pf. Qed.
Print Assumptions C129_obstacles.

Example C129_obstacles_ex : let o s := ScenarioModel.mkDO ScenarioModel.CAR None [] (0, 0)%R 0 0 s in
  ScenarioModel.do_states (o None) = None /\ ScenarioModel.is_dyn_obstacle_static (o (Some [])) 1 = Err PyIndexError.
Proof. split; reflexivity. Qed.

(** Shapes and states: the conversion of a polygon without vertices is an IndexError; the
    speed of a state that has no longitudinal speed is the library's ZValueError, and a
    TypeError if that field holds no number. *)
Theorem C129_states :
  (forall V (veqb : V -> V -> bool), GeoModel.sPolygon2crPolygon veqb [] = Err PyIndexError) /\
  (forall st, aget String.eqb (DataModel.o_dict st) "vx" = None -> DataModel.extract_vel_from_state st = Err ZValueError) /\
  (forall st v, aget String.eqb (DataModel.o_dict st) "vx" = Some v -> (forall x, v <> DataModel.Num x) -> DataModel.extract_vel_from_state st = Err PyTypeError).
Proof. exact C129_states_pf. Qed.
Print Assumptions C129_states.

Example C129_states_ex : DataModel.extract_vel_from_state (DataModel.mkO "PedestrianState" []) = Err ZValueError /\
  DataModel.extract_vel_from_state (DataModel.mkO "VehicleState" [("vx", DataModel.Lights "off")]) = Err PyTypeError.
Proof. split; apply C129_states with (v := DataModel.Lights "off") || apply C129_states; try reflexivity; discriminate. Qed.

(** The context of a simulation is refused exactly if some model has no player, some
    player no model, or some goal no model. *)
Theorem C129_contexts : forall W (c : SimulatorModel.ctx W),
  (SimulatorModel.ctx_post_init c = Ok tt \/ SimulatorModel.ctx_post_init c = Err PyAssertionError) /\
  (SimulatorModel.ctx_post_init c = Ok tt <->
    (forall p, In p (akeys (SimulatorModel.c_models c)) <-> In p (akeys (SimulatorModel.c_players c))) /\
    (forall p, In p (akeys (SimulatorModel.g_missions (SimulatorModel.c_cfg c))) -> In p (akeys (SimulatorModel.c_models c)))) /\
  (forall p, aget Nat.eqb (SimulatorModel.c_sensors c) p = None -> SimulatorModel.g_sensors_default (SimulatorModel.c_cfg c) = false -> SimulatorModel.get_sensor c p = Err PyKeyError).
Proof. exact C129_contexts_pf. Qed.
Print Assumptions C129_contexts.

Example C129_contexts_ex : SimulatorModel.ctx_post_init SimulatorWorld.ctx1 = Ok tt /\
  SimulatorModel.ctx_post_init (W := SimulatorWorld.line) (SimulatorModel.mkCtx (SimulatorModel.c_cfg SimulatorWorld.ctx1) [] [(1%nat, 1%Qc)] [] [] 0%Qc false [] None) = Err PyAssertionError.
Proof. split; vm_compute; reflexivity. Qed.

(** The end of a log without players is a ValueError. *)
Theorem C129_empty_log : forall W, SimulatorModel.simlog_init_time (W := W) [] = Err PyValueError /\ SimulatorModel.simlog_last_time (W := W) [] = Err PyValueError.
Proof. exact C129_empty_log_pf. Qed.
Print Assumptions C129_empty_log.

(** Agents that are asked before their episode began: KeyError; a lane follower whose
    state has no speed or steering angle: AttributeError. *)
Theorem C129_agents :
  (forall X F PP G Lane (env : AgentModel.lf_env X PP G Lane) a (o : SimulatorModel.simobs X F), AgentModel.a_name a = None -> AgentModel.lf_get_commands env a o = Err PyKeyError) /\
  (forall X F PP G Lane (env : AgentModel.lf_env X PP G Lane) a (o : SimulatorModel.simobs X F) n x f, AgentModel.a_name a = Some n -> aget Nat.eqb (SimulatorModel.o_players o) n = Some (x, f) -> AgentModel.lf_attr env x = None ->
    AgentModel.lf_get_commands env a o = Err PyAttributeError) /\
  (forall X F U (a : AgentModel.policy_agent X F U) (o : SimulatorModel.simobs X F), AgentModel.pa_name a = None -> AgentModel.pa_get_commands a o = Err PyKeyError).
Proof. exact C129_agents_pf. Qed.
Print Assumptions C129_agents.

Example C129_agents_ex : AgentModel.pa_get_commands (AgentModel.mkPA (fun _ : AgentModel.policy_arg nat nat => Ok 1%nat) None) (SimulatorModel.mkObs [(1%nat, (2%nat, 3%nat))] 0%Qc) = Err PyKeyError /\
  AgentModel.pa_get_commands (AgentModel.pa_init (AgentModel.mkPA (fun _ : AgentModel.policy_arg nat nat => Ok 1%nat) None) 1) (SimulatorModel.mkObs [(1%nat, (2%nat, 3%nat))] 0%Qc) = Ok 1%nat.
Proof. split; vm_compute; reflexivity. Qed.

(** The geometry of a spacecraft whose front axle is not nearer than its rear axle is an
    AssertionError. *)
Theorem C129_spacecraft : forall w lf lr, (lr <= lf)%R -> DrawModel.spacecraft_geometry_init w lf lr = Err PyAssertionError.
Proof. exact C129_spacecraft_pf. Qed.
Print Assumptions C129_spacecraft.

Example C129_spacecraft_ex : DrawModel.spacecraft_geometry_init 1 3 3 = Err PyAssertionError.
Proof. apply C129_spacecraft. lra. Qed.

(** Drawing: the lights of a vehicle without colours are a TypeError; a rocket or
    spaceship with the commands of another model is an AttributeError; no trajectories a
    ValueError; another number of colours than trajectories an AssertionError; a goal
    that is no polygon and a record without the field asked for are AttributeErrors. *)
Theorem C129_drawings :
  (forall q g, DrawModel.plot_lights q None g = Err PyTypeError) /\
  (forall uu quad models name b col state command lc mp lp pw pl, aget String.eqb models name = Some (b, col) ->
    match state, b with
    | DrawModel.SRocket _ _ _ _, DrawModel.BRocket _ _ => (forall l r, command <> DrawModel.CRocket l r)
    | DrawModel.SSpaceship _ _ _ _, DrawModel.BSpaceship _ _ => (forall t, command <> DrawModel.CSpaceship t)
    | _, _ => False
    end -> DrawModel.plot_player uu quad models name state command lc mp lp pw pl = Err PyAttributeError) /\
  (forall models name col h, aget String.eqb models name = Some col -> DrawModel.plot_trajectories models name [] h None = Err PyValueError) /\
  (forall models name col trs h cs, aget String.eqb models name = Some col -> length cs <> length trs -> DrawModel.plot_trajectories models name trs h (Some cs) = Err PyAssertionError) /\
  (forall models missions name t box m col sh, aget String.eqb missions name = Some m -> aget String.eqb models name = Some col -> DrawModel.mi_static m = false -> DrawModel.mi_geometry m t = Ok sh ->
    (forall e h, sh <> DrawModel.Polygon e h) -> DrawModel.plot_timevarying_goals models missions name t box = Err PyAttributeError) /\
  (forall T V (log : DrawModel.record_log T V) field e r, log = e :: r -> aget String.eqb (snd e) field = None -> DrawModel.column T V log field = Err PyAttributeError).
Proof. exact C129_drawings_pf. Qed.
Print Assumptions C129_drawings.

Example C129_drawings_ex : forall rp,
  DrawModel.plot_player (fun l => concat l) 8 [("r", (DrawModel.BRocket DrawModel.rocket_default0 rp, "g"))] "r" (DrawModel.SRocket (0, 0)%R 0 0 1) DrawModel.COther None None None true true = Err PyAttributeError /\
  DrawModel.plot_trajectories [("p", "g")] "p" [] None (Some ["r"]) = Err PyAssertionError /\
  DrawModel.column nat nat [(0%nat, [("x", 1%nat)])] "y" = Err PyAttributeError.
Proof. repeat split. Qed.

(** Behaviour and steering: a player whose own state has no speed, while all the other
    states can be read, is an AttributeError; the steering for a lookahead of zero is a
    ZeroDivisionError. *)
Theorem C129_control :
  (forall X F (K : CtrlModel.kin X) sp me (l : list (nat * (X * F))) mine, aget Nat.eqb l me = Some mine ->
    (forall p x f, In (p, (x, f)) l -> CtrlModel.relative K (fst mine) x <> None) -> (forall p x f, In (p, (x, f)) l -> p <> me -> CtrlModel.vx_of K x <> None) ->
    CtrlModel.vx_of K (fst mine) = None -> CtrlModel.get_speed_ref K sp me (Some l) = Err PyAttributeError) /\
  (forall minimize c pose along path, PursuitModel.pu_pose c = Some (pose, along) -> PursuitModel.pu_path c = Some path -> PursuitModel.get_lookahead c = 0%R -> PursuitModel.get_desired_steering minimize c = Err PyZeroDivisionError).
Proof. exact C129_control_pf. Qed.
Print Assumptions C129_control.

Example C129_control_ex : CtrlModel.get_speed_ref (F := nat) (CtrlModel.mkKin (fun _ x : nat => Some (CtrlModel.mkRel (qz 9) 0%Qc 0%Qc)) (fun x => if Nat.eqb x 0 then None else Some 1%Qc)) CtrlModel.sb_default 0 (Some [(0%nat, (0%nat, 0%nat)); (1%nat, (1%nat, 0%nat))]) = Err PyAttributeError /\
  PursuitModel.get_lookahead (PursuitModel.update_speed (PursuitModel.pu_new (PursuitModel.mkPPP 0 30 1 2 1 1)) 0) = 0%R.
Proof.
  split; [vm_compute; reflexivity|]. unfold PursuitModel.get_lookahead, Rmin, Rmax. cbn. destruct (Rle_dec _ _); destruct (Rle_dec _ _); lra.
Qed.
