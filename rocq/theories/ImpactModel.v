(** Collisions of the models that the package has: what resolve_collision
    (CollModel.v) does with the models of BuildModel.v.  The methods of a model that can
    raise are made total here, with an arbitrary value where they raise; the statements
    are about models whose methods do not. *)
From Coq Require Import String Reals List Bool Arith.
From Verif Require Import Base R2 GeoModel DataModel LaneModel BodyModel DynModel DrawModel CollModel BuildModel.
Import ListNotations.
Open Scope R_scope.

(** Used for collision.py:40-126. *)
Definition or_else {A} (d : A) (r : result A) : A := match r with Ok x => x | Err _ => d end.
(** A mass or moment of inertia: [None] is math.inf, obstacles.py:30. *)
Definition as_ext (o : option R) : ext := match o with Some r => Fin r | None => Inf end.
(** ModelGeometry as read in collision.py:84-89. *)
Definition as_body (g : BuildModel.geometry) : CollModel.geometry := CollModel.mkG (as_ext (ge_m g)) (as_ext (ge_Iz g)) (ge_e g).
(** VehicleGeometry.length and lr as used in vehicle.py:241-244. *)
Definition wheelbase_lr (b : gbody) : R * R := match b with GVehicle g _ _ _ _ _ => (g_lf g + g_lr g, g_lr g) | _ => (0, 0) end.
(** get_velocity(in_model_frame=False) and set_velocity(..., in_model_frame=False) of a
    model; the state object is written to, simulator_structures.py:171-184. *)
Definition velocity (m : model) : result (vec * R) := get_velocity (mo_kind m) (fst (wheelbase_lr (ge_body (mo_geo m)))) (snd (wheelbase_lr (ge_body (mo_geo m)))) (mo_state m) false.
Definition with_velocity (m : model) (v : vec) (w : R) : result model := bind (set_velocity (mo_kind m) (mo_state m) v w false) (fun st => Ok (set_state m st)).
(** has_collided = True, collision.py:68-69. *)
Definition collide (m : model) : model := mkModel (mo_kind m) (mo_state m) (mo_XT m) (mo_geo m) (mo_params m) (mo_shape m) (mo_tyres m) true.

Section Impact.
Variable unary_union : list (list vec) -> list vec.
Variable quad : nat.
Variable is_valid : list vec -> bool.
Variable centroid : list vec -> vec.
(** The models as the collision code sees them; a velocity that is not a number is not
    written.  Used for collision.py:40-126. *)
Definition seen : model_ops (Sh := list vec) model string :=
  mkMO (fun m => or_else [] (get_footprint unary_union quad is_valid m)) (fun m => or_else [] (get_mesh unary_union quad is_valid centroid m))
       (fun m => or_else (SE2_from_translation_angle (0, 0) 0) (get_pose m)) (fun m => or_else ((0, 0), 0) (velocity m)) (fun m => as_body (mo_geo m)) collide
       (fun m o => match o with Some (v, w) => or_else m (with_velocity m v w) | None => m end).
End Impact.
