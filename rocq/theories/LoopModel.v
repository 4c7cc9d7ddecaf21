(** Simulations of the models that the package has: update of a model written on
    arrays as in the code, and the simulator of SimulatorModel.v with these models and
    the collisions of CollModel.v. *)
From Coq Require Import String QArith Qcanon Qreals Reals List Bool Arith.
From Verif Require Import Base R2 GeoModel DataModel LaneModel BodyModel DynModel DrawModel CollModel BuildModel ImpactModel SimulatorModel.
Import ListNotations.
Open Scope R_scope.
Local Open Scope string_scope.

(** *** update *)

(** The commands of each model: vehicle.py:22-62, pedestrian.py:39-77,
    diff_drive.py:19-57, spacecraft.py:20-58, obstacles_dyn.py:20-65, rocket.py:22-68,
    spaceship.py:22-65. *)
Definition command_class (k : model_kind) : cls :=
  match k with KVehicle | KVehicleDyn => cVehicleCommands | KPedestrian => cPedestrianCommands | KDiffDrive => cDiffDriveCommands
             | KSpacecraft => cSpacecraftCommands | KDynObstacle => cDynObstacleCommands | KRocket => cRocketCommands | KSpaceship => cSpaceshipCommands end.
(** The part of an array that belongs to a class, read with its idx as in
    VehicleCommands(acc=y[VehicleCommands.idx["acc"] + n_states], ...), vehicle.py:175-177,
    pedestrian.py:183-186, spacecraft.py:163-166, obstacles_dyn.py:165-169,
    rocket.py:183-187, spaceship.py:180-183 and, by from_array, diff_drive.py:135. *)
Definition pick (c : cls) (z : list R) : result obj :=
  bind (mapM (fun fi => match nth_error z (snd fi) with Some x => Ok (fst fi, Num x) | None => Err PyIndexError end) (c_idx c)) (construct c).
(** VehicleCommands(acc=0, ddelta=0) and the like, vehicle.py:173, pedestrian.py:181,
    diff_drive.py:133, spacecraft.py:161, rocket.py:181, spaceship.py:178. *)
Definition zeros (c : cls) : list R := map (fun _ => 0) (c_idx c).

(** Used for [dynamics], vehicle.py:197-209. *)
Definition vtype_of (t : string) : vtype :=
  if String.eqb t "car" then CAR else if String.eqb t "truck" then TRUCK else if String.eqb t "motorcycle" then MOTORCYCLE
  else if String.eqb t "bicycle" then BICYCLE else if String.eqb t "differential_drive" then DIFF_DRIVE else OTHER_TYPE.
(** Reading a number that the geometry has; infinite masses are not divided by here.
    Used for [dynamics], vehicle.py:197-209. *)
Definition finite (o : option R) : result R := match o with Some r => Ok r | None => Err PyOther end.
Definition as_vgeo (g : BuildModel.geometry) : result vgeo :=
  bind (finite (ge_m g)) (fun m => bind (finite (ge_Iz g)) (fun iz =>
  match ge_body g with
  | GVehicle v cd ad cf cr h => Ok (DynModel.mkVG (vtype_of (g_type v)) m iz (g_w_half v) (g_lf v) (g_lr v) cd ad cf cr h)
  | _ => Err PyAttributeError
  end)).
Definition as_mparams (vx acc : limits) : mparams := mkMP (fst vx) (snd vx) (fst acc) (snd acc).

(** The states and commands of DynModel.v as objects, and back.
    Used for [dynamics], vehicle.py:197-209. *)
Definition to_vst (o : obj) : result vst := bind (as_ndarray cVehicleState o) (fun z => match z with [a; b; c; d; e] => Ok (mkV a b c d e) | _ => Err PyOther end).
Definition to_dst (o : obj) : result dst := bind (as_ndarray cVehicleStateDyn o) (fun z => match z with [a; b; c; d; e; f; g] => Ok (mkD a b c d e f g) | _ => Err PyOther end).
Definition to_st6 (c : cls) (o : obj) : result st6 := bind (as_ndarray c o) (fun z => match z with [a; b; c; d; e; f] => Ok (mk6 a b c d e f) | _ => Err PyOther end).
Definition to_st8 (c : cls) (o : obj) : result st8 := bind (as_ndarray c o) (fun z => match z with [a; b; c; d; e; f; g; h] => Ok (mk8 a b c d e f g h) | _ => Err PyOther end).
Definition to_st3 (o : obj) : result st3 := bind (as_ndarray cDiffDriveState o) (fun z => match z with [a; b; c] => Ok (mk3 a b c) | _ => Err PyOther end).
Definition num (o : obj) (f : string) : result R := getnum o f.

(** dynamics(x0, u) of the model [m], whose has_collided and _state are read for the
    friction; the equations are those of DynModel.v: vehicle.py:197-209,
    vehicle_dynamic.py:127-200, pedestrian.py:206-220, diff_drive.py:155-169,
    spacecraft.py:186-204, obstacles_dyn.py:189-200, rocket.py:207-248,
    spaceship.py:203-241.  A model with the geometry or the parameters of another class
    is not followed further than an AttributeError. *)
Definition dynamics (m : model) (x u : obj) : result obj :=
  match mo_kind m, mo_params m with
  | KVehicle, PVehicle vx acc d dd =>
      bind (as_vgeo (mo_geo m)) (fun g => bind (to_vst x) (fun x0 => bind (num u "acc") (fun a => bind (num u "ddelta") (fun b =>
      Ok (vst_obj (vehicle_dynamics g (mkVPR (as_mparams vx acc) d dd) x0 (mkVCm a b)))))))
  | KVehicleDyn, PVehicle vx acc d dd =>
      bind (as_vgeo (mo_geo m)) (fun g => bind (to_dst (mo_state m)) (fun self => bind (to_dst x) (fun x0 => bind (num u "acc") (fun a => bind (num u "ddelta") (fun b =>
      match mo_tyres m with
      | Some (pf, pr) =>
          match vehicle_dyn_dynamics g (mkVPR (as_mparams vx acc) d dd) pf pr (mo_collided m) self x0 (mkVCm a b) with
          | Some dx => Ok (dst_obj dx)
          | None => Err PyOther
          end
      | None => Err PyAttributeError
      end)))))
  | KPedestrian, PPedestrian vx acc w =>
      bind (to_st6 cPedestrianState (mo_state m)) (fun self => bind (to_st6 cPedestrianState x) (fun x0 => bind (num u "acc") (fun a => bind (num u "dpsi") (fun b =>
      Ok (st6_obj "PedestrianState" (pedestrian_dynamics (mkPP (as_mparams vx acc) w) (mo_collided m) self x0 (mkPC a b)))))))
  | KDiffDrive, PDiffDrive _ _ om =>
      match ge_body (mo_geo m) with
      | GDiffDrive _ wb wr _ => bind (to_st3 x) (fun x0 => bind (num u "omega_l") (fun a => bind (num u "omega_r") (fun b => Ok (st3_obj (diff_drive_dynamics wb wr (fst om) (snd om) x0 (mkWC a b))))))
      | _ => Err PyAttributeError
      end
  | KSpacecraft, PSpacecraft vx acc w =>
      match ge_body (mo_geo m) with
      | GSpacecraft g _ => bind (finite (ge_m (mo_geo m))) (fun ms => bind (finite (ge_Iz (mo_geo m))) (fun iz =>
          bind (to_st6 cSpacecraftState x) (fun x0 => bind (num u "acc_left") (fun a => bind (num u "acc_right") (fun b =>
          Ok (st6_obj "SpacecraftState" (spacecraft_dynamics (as_mparams vx acc) (fst w) (snd w) (sg_w_half g) ms iz x0 (mkSC a b))))))))
      | _ => Err PyAttributeError
      end
  | KDynObstacle, PObstacle vx acc w _ =>
      bind (to_st6 cDynObstacleState x) (fun x0 => bind (num u "acc_x") (fun a => bind (num u "acc_y") (fun b => bind (num u "acc_psi") (fun c =>
      Ok (st6_obj "DynObstacleState" (obstacle_dynamics (as_mparams vx acc) (fst w) (snd w) x0 (mkOC a b c)))))))
  | KRocket, PRocket _ _ mv ct F d dd =>
      match ge_body (mo_geo m) with
      | GRocket g _ => bind (finite (ge_Iz (mo_geo m))) (fun iz => bind (to_st8 cRocketState x) (fun x0 => bind (num u "F_left") (fun a => bind (num u "F_right") (fun b => bind (num u "dphi") (fun c =>
          Ok (st8_obj "RocketState" "phi" (rocket_dynamics (mkRP mv ct (fst F) (snd F) (fst d) (snd d) (fst dd) (snd dd)) iz (rg_l_m g) x0 (mkRC a b c))))))))
      | _ => Err PyAttributeError
      end
  | KSpaceship, PSpaceship _ _ mv ct F d dd =>
      match ge_body (mo_geo m) with
      | GSpaceship g _ => bind (finite (ge_Iz (mo_geo m))) (fun iz => bind (to_st8 cSpaceshipState x) (fun x0 => bind (num u "thrust") (fun a => bind (num u "ddelta") (fun b =>
          Ok (st8_obj "SpaceshipState" "delta" (spaceship_dynamics (mkRP mv ct (fst F) (snd F) (fst d) (snd d) (fst dd) (snd dd)) iz (hg_l_r g) x0 (mkSSC a b)))))))
      | _ => Err PyAttributeError
      end
  | _, _ => Err PyAttributeError
  end.

(** Whether the commands of a collided model are replaced by zeros: vehicle.py:172,
    pedestrian.py:180, diff_drive.py:132, spacecraft.py:160, rocket.py:180,
    spaceship.py:177; obstacles_dyn.py:162-170 does not ask. *)
Definition ignores (m : model) : bool :=
  match mo_kind m with
  | KVehicle | KVehicleDyn => mo_collided m && negb (match ge_body (mo_geo m) with GVehicle v _ _ _ _ _ => String.eqb (g_type v) "car" | _ => false end)
  | KDynObstacle => false
  | _ => mo_collided m
  end.
(** _stateactions_from_array, vehicle.py:169-178 and the same lines of the others; the
    states are of the class of the model. *)
Definition stateactions_from_array (m : model) (y : list R) : result (obj * obj) :=
  let c := state_class (mo_kind m) in
  let n := List.length (c_idx c) in
  bind (from_array c (firstn n y)) (fun st =>
  bind (pick (command_class (mo_kind m)) (if ignores m then zeros (command_class (mo_kind m)) else skipn n y)) (fun u => Ok (st, u))).
(** _dynamics, vehicle.py:180-184 and the same lines of the others. *)
Definition ivp_rates (m : model) (y : list R) : result (list R) :=
  bind (stateactions_from_array m y) (fun su =>
  bind (dynamics m (fst su) (snd su)) (fun dx =>
  bind (as_ndarray (state_class (mo_kind m)) dx) (fun a => Ok (a ++ zeros (command_class (mo_kind m)))%list))).

Section Update.
(** solve_ivp(fun, (0, dt), y0): the last column of its solution; an exception of [fun],
    and RuntimeError("Failed to integrate ivp!") if there is no success. *)
Variable solve_ivp : (list R -> result (list R)) -> R -> list R -> result (list R).

(** update, vehicle.py:163-195, pedestrian.py:171-204, diff_drive.py:123-153,
    spacecraft.py:151-184, obstacles_dyn.py:156-187, rocket.py:171-205,
    spaceship.py:168-201; VehicleModelDyn inherits that of VehicleModel. *)
Definition model_update (m : model) (commands : obj) (dt : R) : result model :=
  bind (as_ndarray (state_class (mo_kind m)) (mo_state m)) (fun state_np =>
  bind (as_ndarray (command_class (mo_kind m)) commands) (fun action_np =>
  bind (solve_ivp (ivp_rates m) dt (state_np ++ action_np)%list) (fun y =>
  bind (stateactions_from_array m y) (fun su => Ok (set_state m (fst su)))))).
End Update.

(** *** The simulator with these models *)

(** What is left open: agents, goals, sensors, extras and the clock.
    Agent, agent.py:13-35; ObsFilter, sim_perception.py:20-30; PlanningGoal, goals.py:21-39. *)
Record company := mkCompany {
  co_A : Type; co_G : Type; co_S : Type; co_E : Type; co_I : Type; co_scen : Type;
  co_init : co_A -> player -> nat -> co_scen -> option co_G -> model -> result co_A;
  co_cmds : co_A -> simobs obj (list vec) -> result (co_A * obj);
  co_extra : co_A -> result (co_A * option co_E);
  co_done : co_G -> obj -> Qc -> result bool;
  co_sense : co_S -> co_scen -> simobs obj (list vec) -> player -> result (co_S * simobs obj (list vec));
  co_id : co_S;
  co_time : player -> Qc -> co_I;
  co_net : co_scen -> option network;                                  (* sim_context.dg_scenario.lanelet_network *)
  co_obstacles : co_scen -> list (list vec * BuildModel.geometry);     (* shape and geometry of the static obstacles *)
  co_query : co_scen -> list vec -> list nat }.                        (* strtree_obstacles.query *)

(** shapely and scipy.
    Used for [resolve_models], collision.py:40-126; [resolve_with_obstacle], collision.py:133-210. *)
Record library := mkLib {
  li_union : list (list vec) -> list vec; li_quad : nat; li_valid : list vec -> bool; li_centroid : list vec -> vec;
  li_shapely : shapely (list vec); li_solve : (list R -> result (list R)) -> R -> list R -> result (list R) }.

Section World.
Variable L : library.
Variable C : company.
(** The name of the fictitious player of collision.py:129. *)
Variable env : nat.

(** Used for [resolve_models], collision.py:40-126; [resolve_with_obstacle], collision.py:133-210. *)
Definition seen_by : model_ops (Sh := list vec) model string := seen (li_union L) (li_quad L) (li_valid L) (li_centroid L).
Definition seconds (t : Qc) : R := Q2R (this t).
(** A report as the simulator handles it.
    Used for [resolve_models], collision.py:40-126; [resolve_with_obstacle], collision.py:133-210. *)
Definition as_report (t : Qc) (r : CollModel.report (Sh := list vec) string) : SimulatorModel.report (CollModel.report (Sh := list vec) string) :=
  SimulatorModel.mkRep (map fst (rep_players r)) t (Some r).
Definition as_outcome (t : Qc) (o : result (option (CollModel.report (Sh := list vec) string))) : result (option (SimulatorModel.report (CollModel.report (Sh := list vec) string))) :=
  match o with Ok (Some r) => Ok (Some (as_report t r)) | Ok None => Ok None | Err e => Err e end.
(** resolve_collision(p1, p2, sim_context), collision.py:40-126, on the models of the
    two players, who are different (itertools.combinations, simulator.py:239). *)
Definition resolve_models (sc : co_scen C) (p q : player) (t : Qc) (a b : model) :=
  if Nat.eqb p q then ((a, b), Ok None) else
  let '(ms, out) := resolve_collision (li_shapely L) seen_by p q [(p, a); (q, b)] (co_net C sc) (seconds t) in
  ((match aget Nat.eqb ms p with Some a' => a' | None => a end, match aget Nat.eqb ms q with Some b' => b' | None => b end), as_outcome t out).
(** resolve_collision_with_environment(p, model, obstacle, time), collision.py:133-210. *)
Definition resolve_with_obstacle (p : player) (ob : list vec * BuildModel.geometry) (t : Qc) (m : model) :=
  let '(m', out) := resolve_collision_with_environment (li_shapely L) seen_by "everywhere" env p m (fst ob) (as_body (snd ob)) (seconds t) in
  (m', as_outcome t out).

(** The simulator, simulator.py:68-269, with the models of sim/models and the collisions of collision.py:40-210. *)
Definition sim_world : world :=
  mkWorld obj obj model (co_A C) (co_G C) (co_S C) (list vec) (list vec * BuildModel.geometry) (co_E C) (co_I C) (CollModel.report (Sh := list vec) string) (co_scen C)
    mo_state (md_footprint seen_by) (CollModel.intersects (li_shapely L)) (fun m => match mo_kind m with KDynObstacle => true | _ => false end)
    (fun m u d => model_update (li_solve L) m u (seconds d))
    (co_init C) (co_cmds C) (co_extra C) (co_done C) (co_sense C) (co_id C) (co_time C) (co_query C) (co_obstacles C) resolve_models resolve_with_obstacle.
End World.
