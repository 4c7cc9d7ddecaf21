(* Generated from tools/Geo.src by tools/gen_props.py. *)
(** Properties of planar geometry helpers. *)
From Coq Require Import Reals Lra Psatz List Bool Lia.
From Verif Require Import Base R2 GeoModel GeoSpec GeoProofs.
Import ListNotations.
Open Scope R_scope.
From Verif Require Import GeoMain.

(** ** C60 *)

(** as_SE2 is the pose with that position and heading; from_SE2 gives it back,
    with the heading brought to (-pi, pi]. *)
Theorem C60_pose_round_trip : forall t : SE2Transform,
  pose_at (as_SE2 t) (t_p t) (t_theta t) /\
  t_p (from_SE2 (as_SE2 t)) = t_p t /\ same_angle (t_theta (from_SE2 (as_SE2 t))) (t_theta t) /\
  - PI < t_theta (from_SE2 (as_SE2 t)) <= PI /\
  (- PI < t_theta t <= PI -> from_SE2 (as_SE2 t) = t).
Proof. exact C60_pose_round_trip_pf. Qed.
Print Assumptions C60_pose_round_trip.

(** The transform of a state is the pose of that state. *)
Theorem C60_pose_of_state : forall x, pose_at (as_SE2 (from_PoseState x)) (ps_x x, ps_y x) (ps_psi x).
Proof. exact C60_pose_of_state_pf. Qed.
Print Assumptions C60_pose_of_state.

Theorem C60_matrix_round_trip : forall q, is_se2 q -> as_SE2 (from_SE2 q) = q.
Proof. exact C60_matrix_round_trip_pf. Qed.
Print Assumptions C60_matrix_round_trip.

Example C60_round_ex : is_se2 (SE2_from_translation_angle (1, 2) (7 * PI)) /\ - PI < 3 <= PI.
Proof. split; [apply is_se2_of|]. pose proof PI2_3_2. lra. Qed.

(** relative_pose of a pose: the one and only [rel] with base * rel = pose. *)
Theorem C60_relative_pose : forall base pose, is_se2 base ->
  exists rel, relative_pose base pose = Ok rel /\ mmul base rel = pose /\
    (forall r, mmul base r = pose -> r = rel) /\ (is_se2 pose -> is_se2 rel) /\
    (forall p, SE2_apply_T2 base (SE2_apply_T2 rel p) = SE2_apply_T2 pose p).
Proof. exact C60_relative_pose_pf. Qed.
Print Assumptions C60_relative_pose.

(** SE2_apply_T2 keeps distances and orientation, and composes. *)
Theorem C60_apply_is_rigid : forall q, is_se2 q ->
  (forall p p', vdist (SE2_apply_T2 q p) (SE2_apply_T2 q p') = vdist p p') /\
  (forall p p' p'', vcross (vsub (SE2_apply_T2 q p') (SE2_apply_T2 q p)) (vsub (SE2_apply_T2 q p'') (SE2_apply_T2 q p)) = vcross (vsub p' p) (vsub p'' p)) /\
  (forall q' p, SE2_apply_T2 (mmul q q') p = SE2_apply_T2 q (SE2_apply_T2 q' p)) /\
  SE2_apply_T2 q (0, 0) = translation_from_SE2 q.
Proof. exact C60_apply_is_rigid_pf. Qed.
Print Assumptions C60_apply_is_rigid.

(** The same map is used for shapely geometries and point lists. *)
Theorem C60_point_lists : forall q pts,
  apply_SE2_to_shapely_geo pts q = map (SE2_apply_T2 q) pts /\
  (pts <> [] -> transform_xy q pts = Ok (map (SE2_apply_T2 q) pts)).
Proof. exact C60_point_lists_pf. Qed.
Print Assumptions C60_point_lists.

(** The list helper is not total: no points is an error, although a list of no
    points has an image. *)
Theorem C60_empty_point_list_refuted : exists q, is_se2 q /\ transform_xy q [] <> Ok (map (SE2_apply_T2 q) []).
Proof. exact C60_empty_point_list_refuted_pf. Qed.
Print Assumptions C60_empty_point_list_refuted.

(** Interpolation: starts at q0, ends at q1, is a pose in between, turns at a
    constant rate through the shorter angle, is a straight line at constant speed
    for equal headings, and does not depend on the frame. *)
Theorem C60_interpolate : forall q0 q1, is_se2 q0 -> is_se2 q1 ->
  SE2_interpolate q0 q1 0 = q0 /\ SE2_interpolate q0 q1 1 = q1 /\
  (exists w, - PI < w <= PI /\ forall al, exists p, pose_at (SE2_interpolate q0 q1 al) p (angle_from_SE2 q0 + al * w)) /\
  (same_angle (angle_from_SE2 q0) (angle_from_SE2 q1) -> forall al,
     translation_from_SE2 (SE2_interpolate q0 q1 al) =
     vadd (vscale (1 - al) (translation_from_SE2 q0)) (vscale al (translation_from_SE2 q1))) /\
  (forall g al, is_se2 g -> SE2_interpolate (mmul g q0) (mmul g q1) al = mmul g (SE2_interpolate q0 q1 al)) /\
  (forall al be, 0 <= al <= 1 -> 0 <= be <= 1 -> angle_from_SE2 (mmul (SE2_inverse q0) q1) < PI ->
     SE2_interpolate q0 (SE2_interpolate q0 q1 be) al = SE2_interpolate q0 q1 (al * be)).
Proof. exact C60_interpolate_pf. Qed.
Print Assumptions C60_interpolate.

Example C60_interpolate_ex : exists q0 q1, is_se2 q0 /\ is_se2 q1 /\ q0 <> q1 /\ same_angle (angle_from_SE2 q0) (angle_from_SE2 q1) /\
  angle_from_SE2 (mmul (SE2_inverse q0) q1) < PI.
Proof.
  exists (SE2_from_translation_angle (0, 0) 1), (SE2_from_translation_angle (3, 4) 1). split; [apply is_se2_of|]. split; [apply is_se2_of|]. pose proof PI2_3_2.
  split; [intros [= E _]; lra|]. split.
  - rewrite !angle_id by lra. split; reflexivity.
  - rewrite se2_inv, se2_mul, angle_id; lra.
Qed.

(** The distance of positions. *)
Theorem C60_position_distance : forall q0 q1 q2,
  norm_between_SE2value q0 q1 = vdist (translation_from_SE2 q0) (translation_from_SE2 q1) /\
  norm_between_SE2value q0 q1 = norm_between_SE2value q1 q0 /\
  (norm_between_SE2value q0 q1 = 0 <-> translation_from_SE2 q0 = translation_from_SE2 q1) /\
  norm_between_SE2value q0 q2 <= norm_between_SE2value q0 q1 + norm_between_SE2value q1 q2.
Proof. exact C60_position_distance_pf. Qed.
Print Assumptions C60_position_distance.

(** ** C61 *)

(** A closed ring of at least one edge loses its last vertex and nothing else;
    an open list of vertices is kept. *)
Theorem C61_polygon : forall (V : Type) (veqb : V -> V -> bool) v0 mid vn, (forall a b, veqb a b = true <-> a = b) ->
  (v0 = vn -> sPolygon2crPolygon veqb (v0 :: mid ++ [vn]) = Ok (v0 :: mid)) /\
  (v0 <> vn -> sPolygon2crPolygon veqb (v0 :: mid ++ [vn]) = Ok (v0 :: mid ++ [vn])).
Proof. exact C61_polygon_pf. Qed.
Print Assumptions C61_polygon.

(** A line of n+1 points becomes n polygons; the i-th is made from the segment
    between points i and i+1. *)
Theorem C61_line : forall (V : Type) (veqb : V -> V -> bool) (buffer : V -> V -> list V) (l : list V),
  (forall a b, buffer a b <> []) ->
  exists ps, sLine2crPolygon veqb buffer l = Ok ps /\ length ps = pred (length l) /\
    forall i a b, nth_error l i = Some a -> nth_error l (S i) = Some b ->
      exists p, nth_error ps i = Some p /\ sPolygon2crPolygon veqb (buffer a b) = Ok p.
Proof. exact C61_line_pf. Qed.
Print Assumptions C61_line.

(** The dispatch on the kind of geometry. *)
Theorem C61_dispatch : forall (V : Type) (veqb : V -> V -> bool) (buffer : V -> V -> list V),
  (forall e p, sPolygon2crPolygon veqb e = Ok p -> shapely2crPolygons veqb buffer (SPolygon e) = Ok [p]) /\
  (forall l, shapely2crPolygons veqb buffer (SLineString l) = sLine2crPolygon veqb buffer l) /\
  (forall l, shapely2crPolygons veqb buffer (SLinearRing l) = sLine2crPolygon veqb buffer l) /\
  shapely2crPolygons veqb buffer SOther = Err PyValueError.
Proof. exact C61_dispatch_pf. Qed.
Print Assumptions C61_dispatch.

Example C61_ex : sPolygon2crPolygon Nat.eqb [1; 2; 3; 1]%nat = Ok [1; 2; 3]%nat /\
  sLine2crPolygon Nat.eqb (fun a b => [a; b; b; a]) [1; 2; 3]%nat = Ok [[1; 2; 2]; [2; 3; 3]]%nat.
Proof. split; reflexivity. Qed.

(** ** C75 *)

(** get_distance_SE2 is symmetric, frame independent, at least the straight
    distance, zero exactly for equal positions, and the straight distance for
    equal headings. *)
Theorem C75_pose_distance_partial : forall q0 q1, is_se2 q0 -> is_se2 q1 ->
  get_distance_SE2 q0 q1 = get_distance_SE2 q1 q0 /\
  (forall g, is_se2 g -> get_distance_SE2 (mmul g q0) (mmul g q1) = get_distance_SE2 q0 q1) /\
  norm_between_SE2value q0 q1 <= get_distance_SE2 q0 q1 /\
  (get_distance_SE2 q0 q1 = 0 <-> translation_from_SE2 q0 = translation_from_SE2 q1).
Proof. exact C75_pose_distance_partial_pf. Qed.
Print Assumptions C75_pose_distance_partial.

(** It does not separate poses that differ in heading only ... *)
Theorem C75_zero_means_same_pose_refuted : exists q0 q1, is_se2 q0 /\ is_se2 q1 /\ q0 <> q1 /\ get_distance_SE2 q0 q1 = 0.
Proof. exact C75_zero_means_same_pose_refuted_pf. Qed.
Print Assumptions C75_zero_means_same_pose_refuted.

(** ... and a detour can be shorter than the direct way. *)
Theorem C75_triangle_inequality_refuted : exists q0 q1 q2, is_se2 q0 /\ is_se2 q1 /\ is_se2 q2 /\
  get_distance_SE2 q0 q1 + get_distance_SE2 q1 q2 < get_distance_SE2 q0 q2.
Proof. exact C75_triangle_inequality_refuted_pf. Qed.
Print Assumptions C75_triangle_inequality_refuted.

Example C75_ex : is_se2 (SE2_from_translation_angle (1, 2) 3) /\ is_se2 mid.
Proof. split; [apply is_se2_of|]. replace mid with (SE2_from_translation_angle (0, 0) 0); [apply is_se2_of|]. unfold SE2_from_translation_angle, mid. rewrite cos_0, sin_0. f_equal; cbn; ring. Qed.
