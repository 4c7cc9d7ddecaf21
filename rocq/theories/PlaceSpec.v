(** The same simulation somewhere else in the plane: what it means that shapes,
    maps, models and reports are moved by the turn [a] and the translation [t]. *)
From Coq Require Import String Reals List Bool Arith QArith Qcanon.
From Verif Require Import Base R2 GeoModel DataModel LaneModel BodyModel DynModel DrawModel CollModel BuildModel ImpactModel LoopModel BodySpec BuildSpec MoveSpec LoopSpec.
Import ListNotations.
Open Scope R_scope.

Section Spec.
Context (t : vec) (a : R).
Definition there : vec -> vec := in_world t a.
Definition turn : vec -> vec := in_world (0, 0) a.
Definition there_pose (z : mat) : mat := mmul (SE2_from_translation_angle t a) z.

(** What shapely answers does not depend on the place. *)
Definition isect_there (i : isect) : isect :=
  match i with IPolygon l => IPolygon (map there l) | ILine l => ILine (map there l) | IMulti o => IMulti (option_map (map there) o) | IOther => IOther end.
Record shapely_everywhere {Sh} (h : Sh -> Sh) (sh : shapely Sh) : Prop := mkShpE {
  se_touches : forall x y, touches sh (h x) (h y) = touches sh x y;
  se_contains : forall x y, contains sh (h x) (h y) = contains sh x y;
  se_intersects : forall x y, intersects sh (h x) (h y) = intersects sh x y;
  se_centroid : forall x y, contains sh x y = true \/ intersection sh x y <> IOther -> centroid sh (h x) = there (centroid sh x) /\ centroid sh (h y) = there (centroid sh y);  (* shapes with points *)
  se_intersection : forall x y, intersection sh (h x) (h y) = isect_there (intersection sh x y);
  se_contains_pt : forall x p, contains_pt sh (h x) (there p) = contains_pt sh x p;
  se_is_polygon : forall x, is_polygon sh (h x) = is_polygon sh x;
  se_to_polygon : forall x, to_polygon sh (h x) = match to_polygon sh x with Ok y => Ok (h y) | Err e => Err e end }.

(** A map of the road moved: the lanes at the moved point judge moved poses the same. *)
Definition net_there (n n' : network) : Prop := forall p z, map (fun l : lane => l (there_pose z)) (n' (there p)) = map (fun l : lane => l z) (n p).
Definition map_there (n n' : option network) : Prop := match n, n' with Some x, Some y => net_there x y | None, None => True | _, _ => False end.

(** Models in the relation [R] are seen moved by the collision code. *)
Definition turn_velocity (v : vec * R) : vec * R := (turn (fst v), snd v).
Record models_everywhere {Sh M Loc} (h : Sh -> Sh) (md : model_ops (Sh := Sh) M Loc) (Rm : M -> M -> Prop) : Prop := mkMdE {
  me_footprint : forall m n, Rm m n -> md_footprint md n = h (md_footprint md m);
  me_mesh : forall m n, Rm m n -> md_mesh md n = map (fun ls => (fst ls, h (snd ls))) (md_mesh md m);
  me_pose : forall m n, Rm m n -> md_pose md n = there_pose (md_pose md m);
  me_velocity : forall m n, Rm m n -> md_velocity md n = turn_velocity (md_velocity md m);
  me_geometry : forall m n, Rm m n -> md_geometry md n = md_geometry md m;
  me_collided : forall m n, Rm m n -> Rm (md_set_collided md m) (md_set_collided md n);
  me_set_velocity : forall m n v, Rm m n -> Rm (md_set_velocity md m v) (md_set_velocity md n (option_map turn_velocity v)) }.

(** A report of the same collision there. *)
Definition player_there {Sh Loc} (h : Sh -> Sh) (r : player_report (Sh := Sh) Loc) : player_report (Sh := Sh) Loc :=
  mkPR (map (fun ls => (fst ls, h (snd ls))) (pr_locations r)) (pr_at_fault r) (h (pr_footprint r)) (turn_velocity (pr_velocity r)) (option_map turn_velocity (pr_velocity_after r)) (pr_energy_delta r).
Definition report_there {Sh Loc} (h : Sh -> Sh) (r : report (Sh := Sh) Loc) : report (Sh := Sh) Loc :=
  mkRep (map (fun x => (fst x, option_map (player_there h) (snd x))) (rep_players r)) (option_map there (rep_point r)) (option_map turn (rep_normal r)) (rep_time r).
Definition outcome_there {Sh Loc} (h : Sh -> Sh) (o : result (option (report (Sh := Sh) Loc))) : result (option (report (Sh := Sh) Loc)) :=
  match o with Ok x => Ok (option_map (report_there h) x) | Err e => Err e end.
Definition models_there {M} (Rm : M -> M -> Prop) (ms ns : list (nat * M)) : Prop := Forall2 (fun x y => fst y = fst x /\ Rm (snd x) (snd y)) ms ns.
End Spec.

(** *** The models of the package *)

(** The state [o'] is [o], there.  Rockets are left out. *)
Definition with_extra (o : obj) (l : list (string * pv)) : obj := mkO (o_cls o) (o_dict o ++ l).
Definition state_there (t : vec) (a : R) (k : model_kind) (o o' : obj) : Prop :=
  match k with
  | KVehicle => exists x, o = vst_obj x /\ o' = vst_obj (vst_at t a x)
  | KVehicleDyn => exists x l, (l = [] \/ exists w, l = [("dtheta", Num w)]%string) /\ o = with_extra (dst_obj x) l /\ o' = with_extra (dst_obj (dst_at t a x)) l
  | KPedestrian => exists x, o = st6_obj "PedestrianState" x /\ o' = st6_obj "PedestrianState" (st6_at t a x)
  | KDiffDrive => exists x, o = st3_obj x /\ o' = st3_obj (st3_at t a x)
  | KSpacecraft => exists x, o = st6_obj "SpacecraftState" x /\ o' = st6_obj "SpacecraftState" (st6_at t a x)
  | KDynObstacle => exists x, o = st6_obj "DynObstacleState" x /\ o' = st6_obj "DynObstacleState" (st6_at t a x)
  | KSpaceship => exists x, o = st8_obj "SpaceshipState" "delta" x /\ o' = st8_obj "SpaceshipState" "delta" (st8_at t a x)
  | KRocket => False
  end.
(** The geometry and the parameters are of the classes that go with the model. *)
Definition proper (m : model) : Prop :=
  match mo_kind m with
  | KVehicle => exists g p vx acc, mo_params m = PVehicle vx acc (vp_dmax p) (vp_ddmax p) /\ same_vehicle (mo_geo m) g /\ same_limits vx acc (vp_m p)
  | KVehicleDyn => exists g p vx acc pf pr, mo_params m = PVehicle vx acc (vp_dmax p) (vp_ddmax p) /\ same_vehicle (mo_geo m) g /\ same_limits vx acc (vp_m p) /\ mo_tyres m = Some (pf, pr)
  | KPedestrian => exists vx acc w, mo_params m = PPedestrian vx acc w
  | KDiffDrive => exists vx acc om t wb wr rad, mo_params m = PDiffDrive vx acc om /\ ge_body (mo_geo m) = GDiffDrive t wb wr rad
  | KSpacecraft => exists vx acc w g t ms iz, mo_params m = PSpacecraft vx acc w /\ ge_body (mo_geo m) = GSpacecraft g t /\ ge_m (mo_geo m) = Some ms /\ ge_Iz (mo_geo m) = Some iz
  | KDynObstacle => exists vx acc w dd, mo_params m = PObstacle vx acc w dd
  | KSpaceship => exists vx acc mv ct f d dd g t iz, mo_params m = PSpaceship vx acc mv ct f d dd /\ ge_body (mo_geo m) = GSpaceship g t /\ ge_Iz (mo_geo m) = Some iz
  | KRocket => False
  end.
(** The same model, there. *)
Definition model_there (t : vec) (a : R) (m n : model) : Prop :=
  same_make m n /\ mo_collided n = mo_collided m /\ proper m /\ state_there t a (mo_kind m) (mo_state m) (mo_state n).

(** *** The simulator with these models *)
From Verif Require Import SimulatorModel MorphSpec.
Open Scope R_scope.

(** shapely is the same everywhere, and the equations of motion are integrated with a
    Runge-Kutta method, whose steps may depend on the time to go. *)
Record library_everywhere (t : vec) (a : R) (L : library) : Prop := mkLibE {
  le_valid : forall r, li_valid L (map (there t a) r) = li_valid L r;
  le_centroid : forall r, r <> [] -> li_centroid L (map (there t a) r) = there t a (li_centroid L r);
  le_shapely : shapely_everywhere t a (map (there t a)) (li_shapely L);
  le_solve : exists tab hs, forall f d y, li_solve L f d y = rk_array tab (hs d) f d y }.

(** The same observations, there. *)
Definition obs_there (t : vec) (a : R) (o o' : simobs obj (list vec)) : Prop :=
  Forall2 (fun x y => fst y = fst x /\ (exists k, state_there t a k (fst (snd x)) (fst (snd y))) /\ snd (snd y) = map (there t a) (snd (snd x))) (o_players o) (o_players o') /\ o_time o' = o_time o.
(** A static obstacle there.  It does not turn when it is hit, as all static obstacles by default (obstacles.py:30). *)
Definition obstacle_there (t : vec) (a : R) (x y : list vec * BuildModel.geometry) : Prop := y = (map (there t a) (fst x), snd x) /\ ge_Iz (snd x) = None.

(** Agents, goals, sensors and scenarios that do the same there. *)
Record company_everywhere (t : vec) (a : R) (C C' : company) (onA : co_A C -> co_A C' -> Prop) (onG : co_G C -> co_G C' -> Prop) (onS : co_S C -> co_S C' -> Prop)
  (onE : co_E C -> co_E C' -> Prop) (onI : co_I C -> co_I C' -> Prop) (onC : co_scen C -> co_scen C' -> Prop) : Prop := mkCoE {
  ce_init : forall x y p sd sc sc' g g' m n, onA x y -> onC sc sc' -> opt onG g g' -> model_there t a m n -> both onA (co_init C x p sd sc g m) (co_init C' y p sd sc' g' n);
  ce_cmds : forall x y o o', onA x y -> obs_there t a o o' -> both (pairs_of onA eq) (co_cmds C x o) (co_cmds C' y o');
  ce_extra : forall x y, onA x y -> both (pairs_of onA (opt onE)) (co_extra C x) (co_extra C' y);
  ce_done : forall g g' k x y s, onG g g' -> state_there t a k x y -> co_done C' g' y s = co_done C g x s;
  ce_sense : forall f f' sc sc' o o' p, onS f f' -> onC sc sc' -> obs_there t a o o' -> both (pairs_of onS (obs_there t a)) (co_sense C f sc o p) (co_sense C' f' sc' o' p);
  ce_id : onS (co_id C) (co_id C');
  ce_time : forall p s, onI (co_time C p s) (co_time C' p s);
  ce_net : forall sc sc', onC sc sc' -> map_there t a (co_net C sc) (co_net C' sc');
  ce_obstacles : forall sc sc', onC sc sc' -> Forall2 (obstacle_there t a) (co_obstacles C sc) (co_obstacles C' sc');
  ce_query : forall sc sc' f, onC sc sc' -> co_query C' sc' (map (there t a) f) = co_query C sc f }.

(** What corresponds to what in the two simulations. *)
Definition moved_world (t : vec) (a : R) (L : library) (C C' : company) (env : nat) onA onG onS onE onI onC : relations (sim_world L C env) (sim_world L C' env) :=
  mkRels (sim_world L C env) (sim_world L C' env) (fun x y => exists k, state_there t a k x y) eq (model_there t a) onA onG onS (fun x y => y = map (there t a) x) (obstacle_there t a) onE onI (fun x y => y = report_there t a (map (there t a)) x) onC.
