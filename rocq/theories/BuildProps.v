(* Generated from tools/Build.src by tools/gen_props.py. *)
(** Construction of models, and what every model offers. *)
From Coq Require Import String Reals List Bool Lra Lia.
From Verif Require Import Base R2 GeoModel DataModel DataSpec LaneModel BodyModel BodySpec BodyProofs BodyMain DynModel DrawModel BuildModel BuildSpec.
Import ListNotations.
Open Scope R_scope.
Import LaneModel.
From Verif Require Import BuildMain.

(** ** C114  Parameters *)

(** A parameter object is built exactly if every range goes from a smaller to a larger
    number and every largest value is positive; AssertionError otherwise.  So a parameter
    object in use always has proper limits. *)
Theorem C114_parameters : forall p, (proper p -> build p = Ok p) /\ (~ proper p -> build p = Err PyAssertionError).
Proof. exact C114_parameters_pf. Qed.
Print Assumptions C114_parameters.

Theorem C114_built : forall p p', build p = Ok p' -> p' = p /\ proper p.
Proof. exact C114_built_pf. Qed.
Print Assumptions C114_built.

(** Speeds in other units: metres per second and kilometres per hour are converted
    exactly, miles per hour to four parts in a million. *)
Theorem C114_units : forall v, 1000 * ms2kmh v = 3600 * v /\ 3600 * kmh2ms v = 1000 * v /\ ms2kmh (kmh2ms v) = v /\ kmh2ms (ms2kmh v) = v /\
  Rabs (ms2mph v - v * 3600 / (1609344 / 1000)) <= 4 / 1000000 * Rabs v.
Proof. exact C114_units_pf. Qed.
Print Assumptions C114_units.

(** The default parameters exist.  Their limits: *)
Theorem C114_vehicles :
  (exists vx, vp_default_car = Ok (PVehicle vx (-8, 5) 1 (1 / 2)) /\ in_kmh vx (-10) 130) /\
  (exists vx, vp_default_truck = Ok (PVehicle vx (-6, 7 / 2) 1 (1 / 2)) /\ in_kmh vx (-10) 90) /\
  (exists vx, vp_default_bicycle = Ok (PVehicle vx (-4, 3) 1 (1 / 2)) /\ in_kmh vx (-1) 50).
Proof. exact C114_vehicles_pf. Qed.
Print Assumptions C114_vehicles.

Theorem C114_others :
  (exists vx, ped_params_default = Ok (PPedestrian vx (-3, 5) PI) /\ in_kmh vx (-5) 20) /\
  (dd_params_default (-5, 5) = Ok (PDiffDrive (0, 1) (0, 1) (-5, 5))) /\
  (exists vx, sc_params_default = Ok (PSpacecraft vx (-10, 10) (- 2 * PI, 2 * PI)) /\ in_kmh vx (-50) 50) /\
  (exists vx d dd, ro_params_default = Ok (PRocket vx (-1, 1) 2 (1 / 100) (0, 2) d dd) /\ in_kmh vx (- (72 / 10)) (72 / 10) /\ in_degrees d 60 /\ in_degrees dd 20) /\
  (exists vx d dd, ss_params_default = Ok (PSpaceship vx (-1, 1) 2 (1 / 100) (-2, 2) d dd) /\ in_kmh vx (-10) 10 /\ in_degrees d 60 /\ in_degrees dd 45).
Proof. exact C114_others_pf. Qed.
Print Assumptions C114_others.

(** The constants in the statements on dynamics (C51, C52, C57-C59, C81-C83) are these
    defaults. *)
Theorem C114_constants :
  (forall vpr res, In (vpr, res) [(vp_rcar, vp_default_car); (vp_rtruck, vp_default_truck); (vp_rbicycle, vp_default_bicycle)] ->
     exists vx acc, res = Ok (PVehicle vx acc (vp_dmax vpr) (vp_ddmax vpr)) /\ same_limits vx acc (vp_m vpr)) /\
  (exists vx acc, ped_params_default = Ok (PPedestrian vx acc (pp_dtheta DynModel.pp_default)) /\ same_limits vx acc (pp_m DynModel.pp_default)) /\
  (exists vx acc, ro_params_default = Ok (PRocket vx acc (rp_mv rp_default) (rp_CT rp_default) (rp_Flo rp_default, rp_Fhi rp_default) (rp_lo rp_default, rp_hi rp_default) (rp_dlo rp_default, rp_dhi rp_default))) /\
  (exists vx acc, ss_params_default = Ok (PSpaceship vx acc (rp_mv sp_default) (rp_CT sp_default) (rp_Flo sp_default, rp_Fhi sp_default) (rp_lo sp_default, rp_hi sp_default) (rp_dlo sp_default, rp_dhi sp_default))) /\
  (same_vehicle geo_default_car vg_car /\ same_vehicle geo_default_truck vg_truck /\ same_vehicle geo_default_bicycle vg_bicycle).
Proof. exact C114_constants_pf. Qed.
Print Assumptions C114_constants.

Example C114_ex : (exists p, build p = Ok p /\ proper p) /\ build (PVehicle (1, 1) (-1, 1) 1 1) = Err PyAssertionError /\ build (PVehicle (0, 1) (-1, 1) 1 0) = Err PyAssertionError.
Proof.
  split.
  - exists (PModel (0, 1) (0, 1)). assert (P : proper (PModel (0, 1) (0, 1))) by (split; [intros lo hi [[= <- <-]|[[= <- <-]|[]]]; lra|intros d []]). split; [apply C114_parameters; exact P|exact P].
  - split; apply C114_parameters; intros [A B].
    + pose proof (A 1 1 (or_introl eq_refl)). lra.
    + pose proof (B 0 (or_intror (or_introl eq_refl))). lra.
Qed.

(** ** C115  Where a model is *)

(** The pose maps the coordinates of the body to those of the world. *)
Theorem C115_pose : forall m p psi, stands m p psi -> exists q, get_pose m = Ok q /\ forall v, SE2_apply_T2 q v = in_world p psi v.
Proof. exact C115_pose_pf. Qed.
Print Assumptions C115_pose.

(** The velocity in the world is the one in the body, turned with it. *)
Theorem C115_velocity : forall k w l st psi v om, has st "psi" psi ->
  (get_velocity k w l st false = Ok (v, om) <-> exists u, get_velocity k w l st true = Ok (u, om) /\ v = in_world (0, 0) psi u).
Proof. exact C115_velocity_pf. Qed.
Print Assumptions C115_velocity.

(** The footprint is the outline, or the shape of an obstacle, put where the model is. *)
Theorem C115_footprint : forall union quad valid m p psi o, stands m p psi -> outline_as_polygon union quad (ge_body (mo_geo m)) = Ok o -> mo_kind m <> KDynObstacle ->
  valid (map (in_world p psi) o) = true -> get_footprint union quad valid m = Ok (map (in_world p psi) o).
Proof. exact C115_footprint_pf. Qed.
Print Assumptions C115_footprint.

Theorem C115_obstacle : forall union quad valid m p psi, stands m p psi -> mo_kind m = KDynObstacle -> get_footprint union quad valid m = Ok (map (in_world p psi) (mo_shape m)).
Proof. exact C115_obstacle_pf. Qed.
Print Assumptions C115_obstacle.

(** The bodies of the models are those of C84 and C113. *)
Theorem C115_outlines : forall union quad g s r h c1 c2 c3 c4 c5 t wb wr rad,
  outline_as_polygon union quad (GVehicle g c1 c2 c3 c4 c5) = BodyModel.outline g /\ outline_as_polygon union quad GPedestrian = Ok (pedestrian_outline quad) /\
  outline_as_polygon union quad (GDiffDrive t wb wr rad) = Ok (circle quad rad) /\ outline_as_polygon union quad (GSpacecraft s t) = Ok (spacecraft_outline union quad s) /\
  outline_as_polygon union quad (GRocket r t) = Ok (rocket_outline union r) /\ outline_as_polygon union quad (GSpaceship h t) = Ok (spaceship_outline union h) /\
  outline_as_polygon union quad GStatic = Err PyOther /\ outline_as_polygon union quad GObstacle = Err PyOther.
Proof. exact C115_outlines_pf. Qed.
Print Assumptions C115_outlines.

(** The mesh of vehicles is the one of C84. *)
Theorem C115_vehicle_mesh : forall union quad valid centroid m g c1 c2 c3 c4 c5 p psi, stands m p psi -> In (mo_kind m) [KVehicle; KVehicleDyn] -> ge_body (mo_geo m) = GVehicle g c1 c2 c3 c4 c5 ->
  get_footprint union quad valid m = vehicle_footprint g p psi /\
  forall parts, vehicle_mesh centroid g p psi = Ok parts -> get_mesh union quad valid centroid m = Ok (map (fun nt => let '(c, a, b) := snd nt in (fst nt, [c; a; b; c])) parts).
Proof. exact C115_vehicle_mesh_pf. Qed.
Print Assumptions C115_vehicle_mesh.

(** Every other model but the differential drive robot has one part, the whole body. *)
Theorem C115_whole : forall union quad valid centroid m f, In (mo_kind m) [KPedestrian; KSpacecraft; KRocket; KSpaceship; KDynObstacle] -> get_footprint union quad valid m = Ok f ->
  (valid f = true -> get_mesh union quad valid centroid m = Ok [("everywhere"%string, f)]) /\ (valid f = false -> get_mesh union quad valid centroid m = Err PyAssertionError).
Proof. exact C115_whole_pf. Qed.
Print Assumptions C115_whole.

(** Moving and turning the state moves and turns the footprint and every part of the mesh,
    for every model; and where one cannot be made, neither can the other. *)
Theorem C115_rigid : forall union quad valid centroid m m' p psi t a, stands m p psi -> stands m' (in_world t a p) (psi + a) -> same_body m m' ->
  (forall r, valid (map (in_world t a) r) = valid r) -> (forall r, r <> [] -> centroid (map (in_world t a) r) = in_world t a (centroid r)) ->
  carried (map (in_world t a)) (get_footprint union quad valid m) (get_footprint union quad valid m') /\
  carried (map (fun part => (fst part, map (in_world t a) (snd part)))) (get_mesh union quad valid centroid m) (get_mesh union quad valid centroid m').
Proof. exact C115_rigid_pf. Qed.
Print Assumptions C115_rigid.

Example C115_ex : let car x y psi := new_model KVehicle (mkO "VehicleState" [("x", Num x); ("y", Num y); ("psi", Num psi); ("vx", Num 3); ("delta", Num 0)]%string) geo_default_car (PModel (0, 1) (0, 1)) in
  stands (car 1 2 0) (1, 2) 0 /\ stands (car 3 2 0) (in_world (2, 0) 0 (1, 2)) (0 + 0) /\ same_body (car 1 2 0) (car 3 2 0) /\
  (forall t a r, r <> [] -> centroid_or_point (map (in_world t a) r) = in_world t a (centroid_or_point r)) /\
  exists f parts, get_footprint (@concat vec) 16 (fun _ => true) (car 1 2 0) = Ok f /\ length f = 5%nat /\ get_mesh (@concat vec) 16 (fun _ => true) mean_centroid (car 1 2 0) = Ok parts /\ length parts = 4%nat.
Proof.
  cbv zeta. split; [repeat split|]. split.
  { unfold stands, has, in_world, new_model, getattr. cbn [mo_state o_dict aget String.eqb Ascii.eqb Bool.eqb fst snd]. rewrite cos_0, sin_0. repeat split; do 2 f_equal; lra. }
  split; [repeat split|]. split; [exact centroid_world|].
  set (m := new_model _ _ _ _). assert (ST : stands m (1, 2) 0) by (repeat split).
  destruct (C115_vehicle_mesh (@concat vec) 16 (fun _ => true) mean_centroid m _ _ _ _ _ _ (1, 2) 0 ST (or_introl eq_refl) eq_refl) as [F M].
  destruct (C84_vehicle_mesh_pf mean_centroid (BodyModel.mkVG "car" (8 / 10) (12 / 10) (12 / 10)) (1, 2) 0 mean_right) as (x0 & x1 & y & r & l & b & fr & O & _ & _ & E & _); try (cbn; lra); [cbn; auto|].
  exists (map (in_world (1, 2) 0) (box_ring x0 x1 y)). eexists. split; [|split; [reflexivity|split; [apply M; exact E|reflexivity]]].
  rewrite F. unfold vehicle_footprint. rewrite O. cbn [bind]. rewrite apply_world. reflexivity.
Qed.

(** ** C116  Friction after a collision *)

(** The friction of a model that has not collided is zero; after a collision it is opposite
    to each velocity and proportional to it: three times the velocity per second for
    two-wheelers, twice for pedestrians, once for other vehicles. *)
Theorem C116_slows : forall m fx fy fw, get_extra_collision_friction_acc m = Ok (Some (fx, fy, fw)) ->
  (mo_kind m = KVehicleDyn \/ mo_kind m = KPedestrian) /\
  (mo_collided m = false -> fx = 0 /\ fy = 0 /\ fw = 0) /\
  (mo_collided m = true -> exists vx vy w mu, has (mo_state m) "vx" vx /\ has (mo_state m) "vy" vy /\ has (mo_state m) "dpsi" w /\ fx = - (mu * vx) /\ fy = - (mu * vy) /\ fw = - (mu * w) /\
     fx * vx + fy * vy <= 0 /\ fw * w <= 0 /\
     (mo_kind m = KPedestrian -> mu = 2) /\
     (mo_kind m = KVehicleDyn -> (In (model_type m) [Ok "bicycle"; Ok "motorcycle"; Ok "differential_drive"]%string /\ mu = 3) \/ (~ In (model_type m) [Ok "bicycle"; Ok "motorcycle"; Ok "differential_drive"]%string /\ mu = 1))).
Proof. exact C116_slows_pf. Qed.
Print Assumptions C116_slows.

(** Only pedestrians and dynamic vehicles have friction; the spaceship and obstacles raise
    NotImplementedError. *)
Theorem C116_kinds : forall m,
  (In (mo_kind m) [KVehicle; KDiffDrive; KSpacecraft; KRocket] -> get_extra_collision_friction_acc m = Ok None) /\
  (In (mo_kind m) [KSpaceship; KDynObstacle] -> get_extra_collision_friction_acc m = Err PyOther) /\
  (mo_kind m = KPedestrian -> instance_of cPedestrianState (mo_state m) -> exists f, get_extra_collision_friction_acc m = Ok (Some f)) /\
  (mo_kind m = KVehicleDyn -> instance_of cVehicleStateDyn (mo_state m) -> (exists t, model_type m = Ok t) -> exists f, get_extra_collision_friction_acc m = Ok (Some f)).
Proof. exact C116_kinds_pf. Qed.
Print Assumptions C116_kinds.

(** This is the friction in the equations of motion. *)
Theorem C116_dynamics : forall m fx fy fw,
  (forall t name s, mo_kind m = KVehicleDyn -> mo_state m = dst_obj s -> model_type m = Ok name -> type_string t = Some name -> get_extra_collision_friction_acc m = Ok (Some (fx, fy, fw)) ->
     vehicle_friction t (mo_collided m) s = (fx, fy, fw)) /\
  (forall s pp x0 u, mo_kind m = KPedestrian -> mo_state m = st6_obj "PedestrianState" s -> get_extra_collision_friction_acc m = Ok (Some (fx, fy, fw)) ->
     let dx := pedestrian_dynamics pp (mo_collided m) s x0 u in
     s_vx dx = apply_full_acceleration_limits (s_vx x0) (pc_acc u) (pp_m pp) + fx /\ s_vy dx = fy /\ s_dpsi dx = fw).
Proof. exact C116_dynamics_pf. Qed.
Print Assumptions C116_dynamics.

Example C116_ex : let s := mkD 0 0 0 2 1 (1 / 2) 0 in
  let m := mkModel KVehicleDyn (dst_obj s) "VehicleStateDyn" geo_default_bicycle (PModel (0, 1) (0, 1)) [] None true in
  get_extra_collision_friction_acc m = Ok (Some (- 3 * 2, - 3 * 1, - 3 * (1 / 2))) /\ model_type m = Ok "bicycle"%string /\ type_string BICYCLE = Some "bicycle"%string.
Proof. repeat split. Qed.

(** ** C117  Ready-made models *)

(** Every ready-made model can be made from a state of its class and starts from it, has
    the right type and proper parameters, and has not collided; its mass and moment of
    inertia are positive and its restitution is between zero and one. *)
Theorem C117_default : forall d x0, o_cls x0 = c_name (state_class (own_kind d)) -> exists m, default_model d x0 = Ok m /\
  mo_kind m = own_kind d /\ mo_state m = x0 /\ mo_XT m = o_cls x0 /\ mo_collided m = false /\ model_type m = Ok (type_name d) /\ proper (mo_params m) /\
  exists mass Iz, ge_m (mo_geo m) = Some mass /\ ge_Iz (mo_geo m) = Some Iz /\ (mass, Iz, 100 * ge_e (mo_geo m)) = mass_table d /\ 0 < mass /\ 0 < Iz /\ 0 < ge_e (mo_geo m) < 1.
Proof. exact C117_default_pf. Qed.
Print Assumptions C117_default.

(** They have the default parameters of their kind and, for dynamic vehicles, default tyres. *)
Theorem C117_parts : forall d x0 m, default_model d x0 = Ok m ->
  match d with Car | DynCar => vp_default_car | Truck | DynTruck => vp_default_truck | Bicycle | DynBicycle => vp_default_bicycle | Pedestrian => ped_params_default | DiffDrive => dd_params_default (-5, 5)
   | Spacecraft => sc_params_default | Rocket => ro_params_default | Spaceship => ss_params_default end = Ok (mo_params m) /\
  match d with DynCar | DynTruck => mo_tyres m = Some (P3 10 (19 / 10) (9 / 10), P3 11 (19 / 10) 1) | DynBicycle => mo_tyres m = Some (P3 12 (23 / 10) (8 / 10), P3 12 2 1) | _ => mo_tyres m = None end.
Proof. exact C117_parts_pf. Qed.
Print Assumptions C117_parts.

(** The bodies of the ready-made models.  Vehicles get their mesh of four parts. *)
Theorem C117_bodies : forall d x0 m, default_model d x0 = Ok m ->
  match d, ge_body (mo_geo m) with
  | (Car | DynCar), GVehicle g _ _ _ _ _ => g_w_half g = 8 / 10 /\ g_lf g = 12 / 10 /\ g_lr g = 12 / 10
  | (Truck | DynTruck), GVehicle g _ _ _ _ _ => g_w_half g = 12 / 10 /\ g_lf g = 4 /\ g_lr g = 4
  | (Bicycle | DynBicycle), GVehicle g _ _ _ _ _ => g_w_half g = 1 / 4 /\ g_lf g = 1 /\ g_lr g = 1
  | Pedestrian, GPedestrian => True
  | DiffDrive, GDiffDrive _ wb wr r => wb = 1 /\ wr = 2 / 10 /\ r = 6 / 10
  | Spacecraft, GSpacecraft g _ => sg_w_half g = 1 /\ sg_lf g = 2 /\ sg_lr g = 3 /\ n_thrusters (ge_body (mo_geo m)) = Some 2%nat
  | Rocket, GRocket g _ => rg_w_half g = 2 / 10 /\ rg_l g = 9 / 10 /\ n_thrusters (ge_body (mo_geo m)) = Some 2%nat
  | Spaceship, GSpaceship g _ => hg_w_half g = 4 / 10 /\ spaceship_l g = 23 / 10 /\ n_thrusters (ge_body (mo_geo m)) = Some 1%nat
  | _, _ => False
  end.
Proof. exact C117_bodies_pf. Qed.
Print Assumptions C117_bodies.

Theorem C117_mesh : forall union quad valid centroid d x0 m p psi, right_centroid centroid -> default_model d x0 = Ok m -> stands m p psi -> In (own_kind d) [KVehicle; KVehicleDyn] ->
  exists right left back front, get_mesh union quad valid centroid m = Ok [("right", right); ("left", left); ("back", back); ("front", front)]%string.
Proof. exact C117_mesh_pf. Qed.
Print Assumptions C117_mesh.

(** Static things cannot be moved: their mass and moment of inertia are infinite. *)
Theorem C117_static : forall g, In g [geo_default_obstacle; geo_default_static] -> ge_m g = None /\ ge_Iz g = None /\ 0 < ge_e g < 1 /\ forall union quad, outline_as_polygon union quad (ge_body g) = Err PyOther.
Proof. exact C117_static_pf. Qed.
Print Assumptions C117_static.

Example C117_ex : exists m, default_model Rocket (mkO "RocketState" []) = Ok m /\ model_type m = Ok "rocket"%string.
Proof. destruct (C117_default Rocket (mkO "RocketState" []) eq_refl) as (m & E & _ & _ & _ & _ & T & _). exists m. split; assumption. Qed.

(** ** C118  States of another class *)

(** A pedestrian model refuses the state of another class. *)
Theorem C118_pedestrian : forall x0 g p, (o_cls x0 <> "PedestrianState"%string -> pedestrian_model x0 g p = Err PyAssertionError /\ default_model Pedestrian x0 = Err PyAssertionError) /\
  (o_cls x0 = "PedestrianState"%string -> exists m, pedestrian_model x0 g p = Ok m /\ mo_state m = x0).
Proof. exact C118_pedestrian_pf. Qed.
Print Assumptions C118_pedestrian.

(** The other ready-made models accept any object as a state; a car can be made with the
    state of a rocket. *)
Theorem C118_refuted : forall d x0, d <> Pedestrian -> exists m, default_model d x0 = Ok m /\ mo_state m = x0 /\ mo_XT m = o_cls x0.
Proof. exact C118_refuted_pf. Qed.
Print Assumptions C118_refuted.

(** Setting a state checks nothing, for pedestrians either, and integration goes on with
    the class of the first state. *)
Theorem C118_set_state_refuted : forall m x, mo_state (set_state m x) = x /\ mo_XT (set_state m x) = mo_XT m /\ mo_kind (set_state m x) = mo_kind m.
Proof. exact C118_set_state_refuted_pf. Qed.
Print Assumptions C118_set_state_refuted.

(** The shape of an obstacle must be valid. *)
Theorem C118_obstacle : forall valid x0 shape g p, (valid shape = true -> exists m, obstacle_model valid x0 shape g p = Ok m /\ mo_shape m = shape /\ mo_state m = x0 /\ model_type m = Ok "dynamic_obstacle"%string) /\
  (valid shape = false -> obstacle_model valid x0 shape g p = Err PyAssertionError).
Proof. exact C118_obstacle_pf. Qed.
Print Assumptions C118_obstacle.

Example C118_ex : o_cls (mkO "RocketState" []) <> "PedestrianState"%string /\ exists m, default_model Car (mkO "RocketState" []) = Ok m /\ model_type m = Ok "car"%string.
Proof. split; [discriminate|]. destruct (presets Car (mkO "RocketState" [])) as (p & g & E & _ & -> & _); [discriminate|]. eexists. split; [exact E|reflexivity]. Qed.
