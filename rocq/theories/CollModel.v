(** Model of src/dg_commons/sim/collision.py, collision_utils.py and
    collision_structures.py, over the reals.  shapely, the lanelet network and the
    dynamical models are external. *)
From Coq Require Import Reals List Bool Arith.
From Verif Require Import Base R2 GeoModel.
Import ListNotations.
Open Scope R_scope.

(** A float that may be inf (masses and inertias).
    Used for [geometry], models/model_structures.py:42-57; [velocity_after_collision], collision_utils.py:138-147. *)
Inductive ext := Fin (r : R) | Inf.
(** x / d.
    Used for [compute_impulse_response], collision_utils.py:116-135; [rot_velocity_after_collision], collision_utils.py:150-160; [velocity_after_collision], collision_utils.py:138-147. *)
Definition over (x : R) (d : ext) : R := match d with Fin r => x / r | Inf => 0 end.
Definition vover (v : vec) (d : ext) : vec := (over (fst v) d, over (snd v) d).

(** ModelGeometry, models/model_structures.py:42-57. *)
Record geometry := mkG { g_m : ext; g_Iz : ext; g_e : R }.

(** velocity_of_P_given_A, collision_utils.py:26-29. *)
Definition velocity_of_P_given_A (vel : vec) (omega : R) (vec_ap : vec) : vec := vadd vel (vscale omega (rot90 vec_ap)).

(** compute_impulse_response, collision_utils.py:116-135. *)
Definition compute_impulse_response (n vel_ab r_ap r_bp : vec) (a_geom b_geom : geometry) : R :=
  let e := Rmin (g_e a_geom) (g_e b_geom) in
  let j := - (1 + e) * vdot vel_ab n in
  let rot_part := over (vcross r_ap n * vcross r_ap n) (g_Iz a_geom) + over (vcross r_bp n * vcross r_bp n) (g_Iz b_geom) in
  j / (over 1 (g_m a_geom) + over 1 (g_m b_geom) + rot_part).

(** velocity_after_collision, collision_utils.py:138-147. *)
Definition velocity_after_collision (n velocity : vec) (m : ext) (j : R) : vec := vadd velocity (vover (vscale j n) m).

(** rot_velocity_after_collision, collision_utils.py:150-160. *)
Definition rot_velocity_after_collision (r n : vec) (omega : R) (Iz : ext) (j : R) : R := omega + over (vcross r (vscale j n)) Iz.

(** kinetic_energy, collision_utils.py:163-171; None: inf or nan. *)
Definition kinetic_energy (velocity : vec) (m : ext) : option R :=
  match m with Fin r => Some (1 / 2 * r * (vnorm velocity * vnorm velocity)) | Inf => None end.
Definition osub (a b : option R) : option R := match a, b with Some x, Some y => Some (x - y) | _, _ => None end.
Definition oadd (a b : option R) : option R := match a, b with Some x, Some y => Some (x + y) | _, _ => None end.

(** *** Impact geometry *)

(** What shapely's intersection returns, as told apart by the code.
    Used for [find_intersection_points], collision_utils.py:32-71. *)
Inductive isect := IPolygon (exterior : list vec) | ILine (coords : list vec)
| IMulti (mrr : option (list vec)) (* several pieces: exterior of the minimum rotated rectangle, if that is a polygon *)
| IOther.

(** The shapely operations used.
    Used for [compute_impact_geometry], collision_utils.py:82-113. *)
Record shapely (Sh : Type) := mkShp {
  touches : Sh -> Sh -> bool;
  contains : Sh -> Sh -> bool;
  intersects : Sh -> Sh -> bool;
  centroid : Sh -> vec;
  intersection : Sh -> Sh -> isect;
  contains_pt : Sh -> vec -> bool;         (* contains(Point(p).buffer(1e-9)) *)
  is_polygon : Sh -> bool;
  to_polygon : Sh -> result Sh }.          (* Polygon(shape) *)
Arguments touches {Sh}. Arguments contains {Sh}. Arguments intersects {Sh}. Arguments centroid {Sh}. Arguments intersection {Sh}.
Arguments contains_pt {Sh}. Arguments is_polygon {Sh}. Arguments to_polygon {Sh}. Arguments mkShp {Sh}.

Section Coll.
Context {Sh : Type} (sh : shapely Sh).

(** _find_intersection_points, collision_utils.py:32-71 (without the debug
    plot). *)
Definition find_intersection_points (a b : Sh) : result (list vec) :=
  let filtered points :=
    let points := filter (fun p => negb (contains_pt sh a p || contains_pt sh b p)) points in
    if (length points =? 2)%nat then Ok points else Err CollisionException in
  match intersection sh a b with
  | IPolygon ext => filtered (removelast ext)
  | ILine c => filtered c
  | IMulti (Some ext) => filtered (removelast ext)
  | IMulti None => Err PyAttributeError
  | IOther => Err CollisionException
  end.

(** v / np.linalg.norm(v); None: nan (division by zero).
    Used for [compute_impact_geometry], collision_utils.py:82-113. *)
Definition normalize (v : vec) : option vec :=
  if Req_EM_T (vnorm v) 0 then None else Some (vscale (/ vnorm v) v).

(** The midpoint of the segment between two points
    (LineString([p, q]).interpolate(0.5, normalized=True)).
    Used for [compute_impact_geometry], collision_utils.py:82-113. *)
Definition midpoint (p q : vec) : vec := vscale (1 / 2) (vadd p q).

(** compute_impact_geometry, collision_utils.py:82-113: the normal (None: nan)
    and the impact point. *)
Definition compute_impact_geometry (a b : Sh) : result (option vec * vec) :=
  if touches sh a b then Err PyAssertionError
  else
    let oriented normal r_ap := match normal with
                                | None => None
                                | Some n => if Rlt_dec (vdot r_ap n) 0 then Some (vneg n) else Some n
                                end in
    if contains sh a b then
      let impact_point := centroid sh b in
      let r_ap := vsub impact_point (centroid sh a) in
      Ok (oriented (normalize r_ap) r_ap, impact_point)
    else match find_intersection_points a b with
         | Err e => Err e
         | Ok pts =>
             match pts with
             | [first; second] =>
                 let impact_point := midpoint first second in
                 let dxdy := vsub second first in
                 let normal := normalize (- snd dxdy, fst dxdy) in
                 let r_ap := vsub impact_point (centroid sh a) in
                 Ok (oriented normal r_ap, impact_point)
             | _ => Err PyValueError
             end
         end.

(** *** Who is at fault *)

(** A lane: whether a pose is in the lane's direction, and inside the lane
    (DgLanelet.lane_pose_from_SE2_generic, modelled in LaneModel.v).
    Used for [check_who_is_at_fault], collision_utils.py:174-199. *)
Definition lane : Type := mat -> bool * bool.
(** The lanes of the network at a position.
    Used for [check_who_is_at_fault], collision_utils.py:174-199; [resolve_collision], collision.py:40-126. *)
Definition network : Type := vec -> list lane.

(** _is_illegal_lanepose, collision_utils.py:207-209. *)
Definition is_illegal_lanepose (lp : bool * bool) : bool := negb (fst lp) || negb (snd lp).

(** check_who_is_at_fault, collision_utils.py:174-199. *)
Definition check_who_is_at_fault (p_poses : list (nat * mat)) (impact_point : vec) (net : network) : list (nat * bool) :=
  let lanes_at_impact := net impact_point in
  map (fun pp => (fst pp, forallb is_illegal_lanepose (map (fun l : lane => l (snd pp)) lanes_at_impact))) p_poses.

(** *** Reports, collision_structures.py:29-59 *)
Record player_report (Loc : Type) := mkPR {
  pr_locations : list (Loc * Sh); pr_at_fault : bool; pr_footprint : Sh;
  pr_velocity : vec * R; pr_velocity_after : option (vec * R); pr_energy_delta : option R }.
Arguments mkPR {Loc}. Arguments pr_locations {Loc}. Arguments pr_at_fault {Loc}. Arguments pr_footprint {Loc}.
Arguments pr_velocity {Loc}. Arguments pr_velocity_after {Loc}. Arguments pr_energy_delta {Loc}.
Record report (Loc : Type) := mkRep {
  rep_players : list (nat * option (player_report Loc)); rep_point : option vec; rep_normal : option vec; rep_time : R }.
Arguments mkRep {Loc}. Arguments rep_players {Loc}. Arguments rep_point {Loc}. Arguments rep_normal {Loc}. Arguments rep_time {Loc}.

(** A dynamical model (SimModel) as seen by the collision code.  The argument
    None of [md_set_velocity] stands for nan arrays.
    Used for [resolve_collision], collision.py:40-126. *)
Record model_ops (M Loc : Type) := mkMO {
  md_footprint : M -> Sh;
  md_mesh : M -> list (Loc * Sh);
  md_pose : M -> mat;
  md_velocity : M -> vec * R;              (* get_velocity(in_model_frame=False) *)
  md_geometry : M -> geometry;
  md_set_collided : M -> M;                (* has_collided = True *)
  md_set_velocity : M -> option (vec * R) -> M }.
Arguments mkMO {M Loc}. Arguments md_footprint {M Loc}. Arguments md_mesh {M Loc}. Arguments md_pose {M Loc}. Arguments md_velocity {M Loc}.
Arguments md_geometry {M Loc}. Arguments md_set_collided {M Loc}. Arguments md_set_velocity {M Loc}.

Section Resolve.
Context {M Loc : Type} (md : model_ops M Loc) (everywhere : Loc).

(** impact_locations_from_polygons, collision.py:25-37. *)
Definition impact_locations_from_polygons (a : M) (b_shape : Sh) : result (list (Loc * Sh)) :=
  match filter (fun ls => intersects sh b_shape (snd ls)) (md_mesh md a) with
  | [] => Err CollisionException
  | l => Ok l
  end.

(** resolve_collision, collision.py:40-126.  Returns the updated models (the
    objects are mutated even when an exception is raised later) and the result. *)
Definition resolve_collision (a b : nat) (models : list (nat * M)) (scenario : option network) (time : R)
  : list (nat * M) * result (option (report Loc)) :=
  match agetE Nat.eqb models a with Err e => (models, Err e) | Ok a_model =>
  match agetE Nat.eqb models b with Err e => (models, Err e) | Ok b_model =>
  let a_shape := md_footprint md a_model in
  let b_shape := md_footprint md b_model in
  match compute_impact_geometry a_shape b_shape with Err e => (models, Err e) | Ok (normal, impact_point) =>
  let a_cog := translation_from_SE2 (md_pose md a_model) in
  let b_cog := translation_from_SE2 (md_pose md b_model) in
  let r_ap := vsub impact_point a_cog in
  let r_bp := vsub impact_point b_cog in
  let '(a_vel, a_omega) := md_velocity md a_model in
  let '(b_vel, b_omega) := md_velocity md b_model in
  let rel := vsub (velocity_of_P_given_A a_vel a_omega r_ap) (velocity_of_P_given_A b_vel b_omega r_bp) in
  let separating := match normal with None => false | Some n => if Rlt_dec (vdot rel n) 0 then true else false end in
  if separating then (models, Ok None)
  else
    let a_model := md_set_collided md a_model in
    let b_model := md_set_collided md b_model in
    let models := aset Nat.eqb (aset Nat.eqb models a a_model) b b_model in
    match impact_locations_from_polygons a_model b_shape with Err e => (models, Err e) | Ok a_locations =>
    match impact_locations_from_polygons b_model a_shape with Err e => (models, Err e) | Ok b_locations =>
    let faults := match scenario with
                  | None => Ok (false, false)
                  | Some net =>
                      let w := check_who_is_at_fault [(a, md_pose md a_model); (b, md_pose md b_model)] impact_point net in
                      match agetE Nat.eqb w a with Err e => Err e | Ok fa =>
                      match agetE Nat.eqb w b with Err e => Err e | Ok fb => Ok (fa, fb) end end
                  end in
    match faults with Err e => (models, Err e) | Ok (a_fault, b_fault) =>
    let a_geom := md_geometry md a_model in
    let b_geom := md_geometry md b_model in
    let after := match normal with
                 | None => None
                 | Some n =>
                     let j_n := compute_impulse_response n rel r_ap r_bp a_geom b_geom in
                     Some ((velocity_after_collision n a_vel (g_m a_geom) j_n, rot_velocity_after_collision r_ap n a_omega (g_Iz a_geom) j_n),
                           (velocity_after_collision (vneg n) b_vel (g_m b_geom) j_n, rot_velocity_after_collision r_bp (vneg n) b_omega (g_Iz b_geom) j_n))
                 end in
    let a_after := option_map fst after in
    let b_after := option_map snd after in
    let models := aset Nat.eqb (aset Nat.eqb models a (md_set_velocity md a_model a_after)) b (md_set_velocity md b_model b_after) in
    let delta v_after v m := match v_after with None => None | Some (va, _) => osub (kinetic_energy va m) (kinetic_energy v m) end in
    let a_report := mkPR a_locations a_fault a_shape (a_vel, a_omega) a_after (delta a_after a_vel (g_m a_geom)) in
    let b_report := mkPR b_locations b_fault b_shape (b_vel, b_omega) b_after (delta b_after b_vel (g_m b_geom)) in
    (models, Ok (Some (mkRep [(a, Some a_report); (b, Some b_report)] (Some impact_point) normal time)))
    end end end
  end end end.

(** resolve_collision_with_environment, collision.py:133-210; [env] is the name
    of the fictitious player, collision.py:129.  Returns the updated model. *)
Definition resolve_collision_with_environment (env a : nat) (a_model : M) (b_shape : Sh) (b_geom : geometry) (time : R)
  : M * result (option (report Loc)) :=
  let a_shape := md_footprint md a_model in
  match compute_impact_geometry a_shape b_shape with Err e => (a_model, Err e) | Ok (normal, impact_point) =>
  let a_cog := translation_from_SE2 (md_pose md a_model) in
  let r_ap := vsub impact_point a_cog in
  let '(a_vel, a_omega) := md_velocity md a_model in
  let rel := velocity_of_P_given_A a_vel a_omega r_ap in
  let separating := match normal with None => false | Some n => if Rlt_dec (vdot rel n) 0 then true else false end in
  if separating then (a_model, Ok None)
  else
    let a_model := md_set_collided md a_model in
    match impact_locations_from_polygons a_model b_shape with Err e => (a_model, Err e) | Ok a_locations =>
    let a_geom := md_geometry md a_model in
    let r_bp := (1, 1) in
    let a_after := match normal with
                   | None => None
                   | Some n =>
                       let j_n := compute_impulse_response n rel r_ap r_bp a_geom b_geom in
                       Some (velocity_after_collision n a_vel (g_m a_geom) j_n, rot_velocity_after_collision r_ap n a_omega (g_Iz a_geom) j_n)
                   end in
    let a_model := md_set_velocity md a_model a_after in
    let a_delta := match a_after with None => None | Some (va, _) => osub (kinetic_energy va (g_m a_geom)) (kinetic_energy a_vel (g_m a_geom)) end in
    let a_report := mkPR a_locations true a_shape (a_vel, a_omega) a_after a_delta in
    match (if is_polygon sh b_shape then Ok b_shape else to_polygon sh b_shape) with Err e => (a_model, Err e) | Ok b_poly =>
    let env_report := mkPR [(everywhere, b_poly)] false b_poly ((0, 0), 0) (Some ((0, 0), 0)) (Some 0) in
    (a_model, Ok (Some (mkRep [(a, Some a_report); (env, Some env_report)] (Some impact_point) normal time)))
    end end
  end.
End Resolve.

(** *** combine_collision_reports, collision_structures.py:62-84 *)
Section Combine.
Context {Loc : Type}.

(** [same_keys a b]: equality of the key views (as sets).
    Used for combine_collision_reports, collision_structures.py:62-84. *)
Definition same_keys {V W} (a : list (nat * V)) (b : list (nat * W)) : bool :=
  forallb (fun k => existsb (Nat.eqb k) (map fst b)) (map fst a) && forallb (fun k => existsb (Nat.eqb k) (map fst a)) (map fst b).

(** Used for [combine_collision_reports], collision_structures.py:62-84. *)
Fixpoint combine_players (first : list (nat * option (player_report Loc))) (second : list (nat * option (player_report Loc)))
  : result (list (nat * option (player_report Loc))) :=
  match first with
  | [] => Ok []
  | (p, r1) :: rest =>
      match agetE Nat.eqb second p with Err e => Err e | Ok r2 =>
      match r1, r2 with
      | Some r1, Some r2 =>
          match combine_players rest second with Err e => Err e | Ok l =>
          Ok ((p, Some (mkPR (pr_locations r1 ++ pr_locations r2) (pr_at_fault r1) (pr_footprint r1) (pr_velocity r1)
                             (pr_velocity_after r2) (oadd (pr_energy_delta r1) (pr_energy_delta r2)))) :: l)
          end
      | _, _ => Err PyAttributeError
      end end
  end.

(** collision_structures.py:62-84. *)
Definition combine_collision_reports (r1 r2 : report Loc) : result (report Loc) :=
  if same_keys (rep_players r1) (rep_players r2) then
    let '(f, s) := if Rle_dec (rep_time r1) (rep_time r2) then (r1, r2) else (r2, r1) in
    match combine_players (rep_players f) (rep_players s) with Err e => Err e | Ok l => Ok (mkRep l (rep_point f) (rep_normal f) (rep_time f)) end
  else Err ZValueError.

(** CollisionReport.get_empty, collision_structures.py:56-59. *)
Definition get_empty (players : list (nat * option (player_report Loc))) (t : R) : report Loc := mkRep players None None t.
End Combine.
End Coll.
Arguments mkPR {Sh Loc}. Arguments pr_locations {Sh Loc}. Arguments pr_at_fault {Sh Loc}. Arguments pr_footprint {Sh Loc}.
Arguments pr_velocity {Sh Loc}. Arguments pr_velocity_after {Sh Loc}. Arguments pr_energy_delta {Sh Loc}.
Arguments mkRep {Sh Loc}. Arguments rep_players {Sh Loc}. Arguments rep_point {Sh Loc}. Arguments rep_normal {Sh Loc}. Arguments rep_time {Sh Loc}.
Arguments mkMO {Sh M Loc}. Arguments md_footprint {Sh M Loc}. Arguments md_mesh {Sh M Loc}. Arguments md_pose {Sh M Loc}. Arguments md_velocity {Sh M Loc}.
Arguments md_geometry {Sh M Loc}. Arguments md_set_collided {Sh M Loc}. Arguments md_set_velocity {Sh M Loc}.
