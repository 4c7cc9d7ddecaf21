(** Construction of models and what every model offers: parameters, geometries,
    defaults, pose, footprint, mesh, type and the friction after a collision.
    sim/models/*.py and SimModel of sim/simulator_structures.py:148-216; numbers are
    reals. *)
From Coq Require Import String Reals List Bool Arith.
From Verif Require Import Base R2 GeoModel DataModel LaneModel BodyModel DynModel DrawModel.
Import ListNotations.
Open Scope R_scope.
Local Open Scope string_scope.
Import LaneModel.

(** *** Units, models/utils.py:8-17. *)
Definition ms2kmh (v : R) : R := v * (36 / 10).
Definition ms2mph (v : R) : R := v * (223694 / 100000).
Definition kmh2ms (v : R) : R := v / (36 / 10).

(** *** Parameters *)

(** A pair of a minimum and a maximum.
    Used for [params], model_structures.py:74-79; [model_post_init], model_structures.py:81-83. *)
Definition limits : Type := R * R.
(** The parameter classes: ModelParameters (model_structures.py:74-79),
    VehicleParameters (vehicle_utils.py:8-13), PedestrianParameters
    (pedestrian_utils.py:9-12), DiffDriveParameters (diff_drive_structures.py:116-119),
    SpacecraftParameters (spacecraft_structures.py:110-113), DynObstacleParameters
    (obstacles.py:44-49), RocketParameters (rocket_structures.py:180-191),
    SpaceshipParameters (spaceship_structures.py:172-183). *)
Inductive params :=
| PModel (vx acc : limits)
| PVehicle (vx acc : limits) (delta_max ddelta_max : R)
| PPedestrian (vx acc : limits) (dtheta_max : R)
| PDiffDrive (vx acc omega : limits)
| PSpacecraft (vx acc dpsi : limits)
| PObstacle (vx acc dpsi ddpsi : limits)
| PRocket (vx acc : limits) (m_v C_T : R) (F delta ddelta : limits)
| PSpaceship (vx acc : limits) (m_v C_T : R) (thrust delta ddelta : limits).

(** assert c; then go on.  Used for [model_post_init], model_structures.py:81-83. *)
Definition assert_then {A} (c : bool) (k : result A) : result A := if c then k else Err PyAssertionError.
Definition ordered (l : limits) : bool := LaneModel.ltb (fst l) (snd l).
(** ModelParameters.__post_init__, model_structures.py:81-83; then [k]. *)
Definition model_post_init {A} (vx acc : limits) (k : result A) : result A :=
  assert_then (ordered vx) (assert_then (ordered acc) k).
(** The constructors: the generated __init__ stores the arguments and calls
    __post_init__, model_structures.py:81-83, vehicle_utils.py:28-31,
    pedestrian_utils.py:18-20, diff_drive_structures.py:129-131,
    spacecraft_structures.py:121-123, obstacles.py:51-54, rocket_structures.py:214-218,
    spaceship_structures.py:206-210. *)
Definition build (p : params) : result params :=
  match p with
  | PModel vx acc => model_post_init vx acc (Ok p)
  | PVehicle vx acc d dd => model_post_init vx acc (assert_then (LaneModel.ltb 0 d) (assert_then (LaneModel.ltb 0 dd) (Ok p)))
  | PPedestrian vx acc d => model_post_init vx acc (assert_then (LaneModel.ltb 0 d) (Ok p))
  | PDiffDrive vx acc om => model_post_init vx acc (assert_then (ordered om) (Ok p))
  | PSpacecraft vx acc d => model_post_init vx acc (assert_then (ordered d) (Ok p))
  | PObstacle vx acc d dd => model_post_init vx acc (assert_then (ordered d) (assert_then (ordered dd) (Ok p)))
  | PRocket vx acc _ _ F d dd | PSpaceship vx acc _ _ F d dd => model_post_init vx acc (assert_then (ordered dd) (assert_then (ordered d) (assert_then (ordered F) (Ok p))))
  end.

(** VehicleParameters.default_car, default_truck, default_bicycle, vehicle_utils.py:15-27. *)
Definition vp_default_car : result params := build (PVehicle (kmh2ms (-10), kmh2ms 130) (-8, 5) 1 (5 / 10)).
Definition vp_default_truck : result params := build (PVehicle (kmh2ms (-10), kmh2ms 90) (-6, 35 / 10) 1 (5 / 10)).
Definition vp_default_bicycle : result params := build (PVehicle (kmh2ms (-1), kmh2ms 50) (-4, 3) 1 (5 / 10)).
(** PedestrianParameters.default, pedestrian_utils.py:14-16. *)
Definition ped_params_default : result params := build (PPedestrian (kmh2ms (-5), kmh2ms 20) (-3, 5) PI).
(** DiffDriveParameters.default, diff_drive_structures.py:120-127. *)
Definition dd_params_default (omega : limits) : result params := build (PDiffDrive (0, 1) (0, 1) omega).
(** SpacecraftParameters.default, spacecraft_structures.py:115-119. *)
Definition sc_params_default : result params := build (PSpacecraft (kmh2ms (-50), kmh2ms 50) (-10, 10) (-2 * PI, 2 * PI)).
(** np.deg2rad.
    Used for [ro_params_default], rocket_structures.py:193-212; [ss_params_default], spaceship_structures.py:185-204. *)
Definition deg2rad (d : R) : R := d * PI / 180.
(** RocketParameters.default, rocket_structures.py:193-212. *)
Definition ro_params_default : result params :=
  build (PRocket (kmh2ms (- (72 / 10)), kmh2ms (72 / 10)) (-1, 1) 2 (1 / 100) (0, 2) (- deg2rad 60, deg2rad 60) (- deg2rad 20, deg2rad 20)).
(** SpaceshipParameters.default, spaceship_structures.py:185-204. *)
Definition ss_params_default : result params :=
  build (PSpaceship (kmh2ms (-10), kmh2ms 10) (-1, 1) 2 (1 / 100) (-2, 2) (- deg2rad 60, deg2rad 60) (- deg2rad 45, deg2rad 45)).

(** *** Geometries *)

(** What the geometry classes add to ModelGeometry.
    Used for [geometry], model_structures.py:42-57; [n_thrusters], spacecraft_structures.py:85-87. *)
Inductive gbody :=
| GStatic                                            (* StaticModelGeometry, model_structures.py:64-71 *)
| GObstacle                                          (* ObstacleGeometry, obstacles.py:12-32 *)
| GVehicle (g : vehicle_geometry) (c_drag a_drag c_rr_f c_rr_r h_cog : R)
                                                     (* VehicleGeometry, vehicle_structures.py:24-47 *)
| GPedestrian                                        (* PedestrianGeometry, pedestrian.py:22-36 *)
| GDiffDrive (type : string) (wheelbase wheelradius radius : R)
                                                     (* DiffDriveGeometry, diff_drive_structures.py:21-32 *)
| GSpacecraft (g : spacecraft_geometry) (type : string)
| GRocket (g : rocket_geometry) (type : string)
| GSpaceship (g : spaceship_geometry) (type : string).
(** ModelGeometry, model_structures.py:42-57; [None] is an infinite mass or inertia. *)
Record geometry := mkGeo { ge_m : option R; ge_Iz : option R; ge_e : R; ge_color : string; ge_body : gbody }.

(** ObstacleGeometry.default_static, obstacles.py:28-32; StaticModelGeometry.default,
    model_structures.py:69-71. *)
Definition geo_default_obstacle : geometry := mkGeo None None (1 / 10) "darkorchid" GObstacle.
Definition geo_default_static : geometry := mkGeo None None (4 / 10) "black" GStatic.
(** VehicleGeometry.default_car, default_bicycle, default_truck,
    vehicle_structures.py:48-109, and the default fields, 42-47. *)
Definition geo_default_car : geometry := mkGeo (Some 1300) (Some 1600) (5 / 10) "royalblue" (GVehicle (BodyModel.mkVG "car" (8 / 10) (12 / 10) (12 / 10)) (3756 / 10000) 2 (3 / 1000) (3 / 1000) (7 / 10)).
Definition geo_default_bicycle : geometry := mkGeo (Some 85) (Some 90) (35 / 100) "saddlebrown" (GVehicle (BodyModel.mkVG "bicycle" (25 / 100) 1 1) (1 / 100) (2 / 10) (3 / 1000) (3 / 1000) (7 / 10)).
Definition geo_default_truck : geometry := mkGeo (Some 8000) (Some 6300) (5 / 10) "darkgreen" (GVehicle (BodyModel.mkVG "truck" (12 / 10) 4 4) (3756 / 10000) 4 (3 / 1000) (3 / 1000) (7 / 10)).
(** PedestrianGeometry.default, pedestrian.py:34-36. *)
Definition geo_default_pedestrian : geometry := mkGeo (Some 75) (Some 50) (35 / 100) "pink" GPedestrian.
(** DiffDriveGeometry.default, diff_drive_structures.py:34-53. *)
Definition geo_default_diff_drive : geometry := mkGeo (Some 3) (Some 5) (5 / 10) "royalblue" (GDiffDrive "differential_drive" 1 (2 / 10) (6 / 10)).
(** SpacecraftGeometry.default, spacecraft_structures.py:37-55, with the assertion of 34-35. *)
Definition geo_default_spacecraft : result geometry :=
  bind (spacecraft_geometry_init 1 2 3) (fun g => Ok (mkGeo (Some 50) (Some 100) (7 / 10) "royalblue" (GSpacecraft g "spacecraft"))).
(** RocketGeometry.default, rocket_structures.py:50-80; SpaceshipGeometry.default,
    spaceship_structures.py:43-69. *)
Definition geo_default_rocket : geometry := mkGeo (Some 2) (Some 1) (7 / 10) "royalblue" (GRocket rocket_default0 "rocket").
Definition geo_default_spaceship : geometry := mkGeo (Some 2) (Some 1) (7 / 10) "royalblue" (GSpaceship spaceship_default0 "spaceship").

(** n_thrusters, spacecraft_structures.py:85-87, rocket_structures.py:116-118,
    spaceship_structures.py:110-112. *)
Definition n_thrusters (b : gbody) : option nat :=
  match b with GSpacecraft _ _ => Some 2%nat | GRocket _ _ => Some 2%nat | GSpaceship _ _ => Some 1%nat | _ => None end.

Section Outlines.
Variable unary_union : list (list vec) -> list vec.
Variable quad : nat.
(** outline_as_polygon: vehicle_structures.py:148-150, pedestrian.py:30-32,
    diff_drive_structures.py:68-70, spacecraft_structures.py:81-83,
    rocket_structures.py:112-114, spaceship_structures.py:106-108.  The outline of
    obstacles and of static geometries raises NotImplementedError,
    obstacles.py:24-26, model_structures.py:66-67. *)
Definition outline_as_polygon (b : gbody) : result (list vec) :=
  match b with
  | GVehicle g _ _ _ _ _ => BodyModel.outline g
  | GPedestrian => Ok (pedestrian_outline quad)
  | GDiffDrive _ _ _ r => Ok (circle quad r)
  | GSpacecraft g _ => Ok (spacecraft_outline unary_union quad g)
  | GRocket g _ => Ok (rocket_outline unary_union g)
  | GSpaceship g _ => Ok (spaceship_outline unary_union g)
  | GStatic | GObstacle => Err PyOther
  end.
End Outlines.

(** *** Models *)

(** The attributes of a model object: its class; _state, XT, geometry, parameters,
    has_collided (a class attribute that starts as False, simulator_structures.py:154);
    the shape of an obstacle and the tyres of a dynamic vehicle. *)
Record model := mkModel {
  mo_kind : model_kind; mo_state : obj; mo_XT : string; mo_geo : geometry; mo_params : params;
  mo_shape : list vec; mo_tyres : option (pacejka * pacejka); mo_collided : bool }.

Section Models.
Variable unary_union : list (list vec) -> list vec.
Variable quad : nat.
(** Polygon.is_valid and Polygon.centroid of shapely. *)
Variable is_valid : list vec -> bool.
Variable centroid : list vec -> vec.

(** The constructors.  They store the given state object and its class;
    PedestrianModel looks at the class of the state, DynObstacleModel at the shape:
    vehicle.py:141-149, diff_drive.py:109-117, pedestrian.py:156-165,
    spacecraft.py:137-145, rocket.py:157-165, spaceship.py:154-162,
    obstacles_dyn.py:146-154, vehicle_dynamic.py:75-95. *)
Definition new_model (k : model_kind) (x0 : obj) (g : geometry) (p : params) : model := mkModel k x0 (o_cls x0) g p [] None false.
Definition vehicle_model (x0 : obj) (g : geometry) (p : params) : result model := Ok (new_model KVehicle x0 g p).
Definition vehicle_model_dyn (x0 : obj) (g : geometry) (p : params) (front rear : pacejka) : result model :=
  Ok (mkModel KVehicleDyn x0 (o_cls x0) g p [] (Some (front, rear)) false).
Definition pedestrian_model (x0 : obj) (g : geometry) (p : params) : result model :=
  assert_then (String.eqb (o_cls x0) "PedestrianState") (Ok (new_model KPedestrian x0 g p)).
Definition diff_drive_model (x0 : obj) (g : geometry) (p : params) : result model := Ok (new_model KDiffDrive x0 g p).
Definition spacecraft_model (x0 : obj) (g : geometry) (p : params) : result model := Ok (new_model KSpacecraft x0 g p).
Definition rocket_model (x0 : obj) (g : geometry) (p : params) : result model := Ok (new_model KRocket x0 g p).
Definition spaceship_model (x0 : obj) (g : geometry) (p : params) : result model := Ok (new_model KSpaceship x0 g p).
Definition obstacle_model (x0 : obj) (shape : list vec) (g : geometry) (p : params) : result model :=
  assert_then (is_valid shape) (Ok (mkModel KDynObstacle x0 (o_cls x0) g p shape None false)).

(** The ready-made models: VehicleModel.default_*, vehicle.py:151-161;
    VehicleModelDyn.default_*, vehicle_dynamic.py:97-125; default of the others,
    pedestrian.py:167-169, diff_drive.py:119-121, spacecraft.py:147-149,
    rocket.py:167-169, spaceship.py:164-166. *)
Inductive preset := Car | Truck | Bicycle | DynCar | DynTruck | DynBicycle | Pedestrian | DiffDrive | Spacecraft | Rocket | Spaceship.
Definition default_model (d : preset) (x0 : obj) : result model :=
  match d with
  | Bicycle => bind vp_default_bicycle (vehicle_model x0 geo_default_bicycle)
  | Car => bind vp_default_car (vehicle_model x0 geo_default_car)
  | Truck => bind vp_default_truck (vehicle_model x0 geo_default_truck)
  | DynBicycle => bind vp_default_bicycle (fun p => vehicle_model_dyn x0 geo_default_bicycle p (default_bicycle_front true) (default_bicycle_rear true))
  | DynCar => bind vp_default_car (fun p => vehicle_model_dyn x0 geo_default_car p (default_car_front true) (default_car_rear true))
  | DynTruck => bind vp_default_truck (fun p => vehicle_model_dyn x0 geo_default_truck p (default_truck_front true) (default_truck_rear true))
  | Pedestrian => bind ped_params_default (pedestrian_model x0 geo_default_pedestrian)
  | DiffDrive => bind (dd_params_default (-5, 5)) (diff_drive_model x0 geo_default_diff_drive)
  | Spacecraft => bind geo_default_spacecraft (fun g => bind sc_params_default (spacecraft_model x0 g))
  | Rocket => bind ro_params_default (rocket_model x0 geo_default_rocket)
  | Spaceship => bind ss_params_default (spaceship_model x0 geo_default_spaceship)
  end.

(** model_type: vehicle.py:262-264, diff_drive.py:209-211, spacecraft.py:250-252,
    rocket.py:294-296, spaceship.py:287-289 (the type of the geometry);
    pedestrian.py:258-260, obstacles_dyn.py:237-239 (constants).  A geometry of another
    class has no such attribute. *)
Definition model_type (m : model) : result string :=
  match mo_kind m, ge_body (mo_geo m) with
  | KPedestrian, _ => Ok "pedestrian"
  | KDynObstacle, _ => Ok "dynamic_obstacle"
  | (KVehicle | KVehicleDyn | KDiffDrive), GVehicle g _ _ _ _ _ => Ok (g_type g)
  | (KVehicle | KVehicleDyn | KDiffDrive), GDiffDrive t _ _ _ => Ok t
  | (KSpacecraft | KRocket | KSpaceship), (GSpacecraft _ t | GRocket _ t | GSpaceship _ t) => Ok t
  | _, _ => Err PyAttributeError
  end.

(** get_pose: vehicle.py:233-234, diff_drive.py:192-193, pedestrian.py:232-233,
    spacecraft.py:223-224, rocket.py:267-268, spaceship.py:260-261,
    obstacles_dyn.py:206-207. *)
Definition get_pose (m : model) : result mat :=
  let st := mo_state m in
  bind (getnum st "x") (fun x => bind (getnum st "y") (fun y => bind (getnum st "psi") (fun psi => Ok (SE2_from_translation_angle (x, y) psi)))).

(** get_footprint, with its assertion where there is one: vehicle.py:211-216,
    diff_drive.py:171-175, pedestrian.py:222-227, spacecraft.py:206-212,
    rocket.py:250-256, spaceship.py:243-249, obstacles_dyn.py:202-204. *)
Definition get_footprint (m : model) : result (list vec) :=
  let moved o := bind (get_pose m) (fun q => Ok (apply_SE2_to_shapely_geo o q)) in
  let body := outline_as_polygon unary_union quad (ge_body (mo_geo m)) in
  match mo_kind m with
  | KVehicle | KVehicleDyn | KDiffDrive => bind body moved
  | KDynObstacle => moved (mo_shape m)
  | _ => bind body (fun o => bind (moved o) (fun f => assert_then (is_valid f) (Ok f)))
  end.

(** get_mesh: the four triangles of vehicles and differential drive robots,
    vehicle.py:218-231, diff_drive.py:177-190; one part for the others,
    pedestrian.py:229-230, spacecraft.py:214-221, rocket.py:258-265,
    spaceship.py:251-258, obstacles_dyn.py:230-235.  A part is given by its ring. *)
Definition triangle_ring (t : vec * vec * vec) : list vec := let '(c, a, b) := t in [c; a; b; c].
Definition get_mesh (m : model) : result (list (string * list vec)) :=
  bind (get_footprint m) (fun f =>
  match mo_kind m with
  | KVehicle | KVehicleDyn | KDiffDrive => bind (mesh_of centroid f) (fun ts => Ok (map (fun nt => (fst nt, triangle_ring (snd nt))) ts))
  | KPedestrian => Ok [("everywhere", f)]
  | _ => assert_then (is_valid f) (Ok [("everywhere", f)])
  end).

(** get_extra_collision_friction_acc: vehicle_dynamic.py:233-241,
    pedestrian.py:266-274; nothing for vehicle.py:270-272, diff_drive.py:217-219,
    spacecraft.py:258-260, rocket.py:302-304; NotImplementedError for
    spaceship.py:295-296, obstacles_dyn.py:245-246. *)
Definition get_extra_collision_friction_acc (m : model) : result (option (R * R * R)) :=
  let slowing mu :=
    if mo_collided m then
      bind (getnum (mo_state m) "vx") (fun vx => bind (getnum (mo_state m) "vy") (fun vy => bind (getnum (mo_state m) "dpsi") (fun dpsi =>
      Ok (Some (- mu * vx, - mu * vy, - mu * dpsi)))))
    else Ok (Some (0, 0, 0)) in
  match mo_kind m with
  | KVehicleDyn => bind (model_type m) (fun t => slowing (if existsb (String.eqb t) ["bicycle"; "motorcycle"; "differential_drive"] then 3 else 1))
  | KPedestrian => slowing 2
  | KVehicle | KDiffDrive | KSpacecraft | KRocket => Ok None
  | KSpaceship | KDynObstacle => Err PyOther
  end.

(** set_state, simulator_structures.py:208-210: XT keeps the class of the first state. *)
Definition set_state (m : model) (x : obj) : model :=
  mkModel (mo_kind m) x (mo_XT m) (mo_geo m) (mo_params m) (mo_shape m) (mo_tyres m) (mo_collided m).
End Models.
