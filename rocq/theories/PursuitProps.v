(* Generated from tools/Pursuit.src by tools/gen_props.py. *)
(** Properties of the pure pursuit controller. *)
From Coq Require Import Reals Lra Psatz List Bool ClassicalEpsilon.
From Verif Require Import Base R2 GeoModel GeoSpec GeoProofs PursuitModel PursuitSpec.
Open Scope R_scope.
From Verif Require Import PursuitMain.

(** The lookahead is always inside its limits, and is the speed-dependent value
    where that is inside. *)
Theorem C38_lookahead : forall c, pp_lo (pu_param c) <= pp_hi (pu_param c) ->
  pp_lo (pu_param c) <= get_lookahead c <= pp_hi (pu_param c) /\
  (pp_lo (pu_param c) <= k_lookahead (pu_param c) * pu_speed c <= pp_hi (pu_param c) -> get_lookahead c = k_lookahead (pu_param c) * pu_speed c) /\
  (k_lookahead (pu_param c) * pu_speed c <= pp_lo (pu_param c) -> get_lookahead c = pp_lo (pu_param c)) /\
  (pp_hi (pu_param c) <= k_lookahead (pu_param c) * pu_speed c -> get_lookahead c = pp_hi (pu_param c)).
Proof. exact C38_lookahead_pf. Qed.
Print Assumptions C38_lookahead.

Example C38_lookahead_ex : pp_lo (pu_param (update_speed (pu_new pp_default) 10)) <= pp_hi (pu_param (update_speed (pu_new pp_default) 10)) /\
  get_lookahead (update_speed (pu_new pp_default) 10) = 8.
Proof. split; [cbn; lra|]. unfold get_lookahead, Rmin, Rmax. cbn. destruct (Rle_dec _ _); destruct (Rle_dec _ _); lra. Qed.

(** The constructor does not check the limits: with min > max the lookahead
    leaves them. *)
Theorem C38_unchecked_limits_refuted : exists p, let c := update_speed (pu_new p) 1 in get_lookahead c < pp_lo (pu_param c).
Proof. exact C38_unchecked_limits_refuted_pf. Qed.
Print Assumptions C38_unchecked_limits_refuted.

(** Without a pose or without a path: RuntimeError. *)
Theorem C38_needs_pose_and_path : forall minimize c, pu_pose c = None \/ pu_path c = None -> get_desired_steering minimize c = Err PyRuntimeError.
Proof. exact C38_needs_pose_and_path_pf. Qed.
Print Assumptions C38_needs_pose_and_path.

Example C38_needs_ex : pu_path (update_pose (pu_new pp_default) mid 0) = None.
Proof. reflexivity. Qed.

(** The steering law.  The goal is a point of the path between min_distance and
    min_distance + lookahead further along; the steering angle delta is in
    (-pi/2, pi/2) and tan delta = length / lookahead * (2 sin alpha + 1e-9), where
    alpha is the angle under which the rear axle sees the goal. *)
Theorem C38_steering_law : forall minimize c path p theta along delta, within_bounds minimize -> ready c path p theta along ->
  0 <= get_lookahead c -> get_desired_steering minimize c = Ok delta ->
  exists s goal, along + min_distance (pu_param c) <= s <= along + min_distance (pu_param c) + get_lookahead c /\
    goal = translation_from_SE2 (path s) /\
    let rear := rear_of p theta (pp_lr (pu_param c)) in
    exists sin_alpha, vdist goal rear * sin_alpha = leftward rear theta goal /\ - 1 <= sin_alpha <= 1 /\
      - (PI / 2) < delta < PI / 2 /\
      tan delta = pp_length (pu_param c) / get_lookahead c * (2 * sin_alpha + pp_eps).
Proof. exact C38_steering_law_pf. Qed.
Print Assumptions C38_steering_law.

(** Signs: a goal to the left (or straight ahead) gives a positive angle, a goal
    more than 1e-9/2 (relative) to the right a negative one. *)
Theorem C38_steering_sign : forall minimize c path p theta along delta, within_bounds minimize -> ready c path p theta along ->
  0 < get_lookahead c -> 0 < pp_length (pu_param c) -> get_desired_steering minimize c = Ok delta ->
  exists s goal, along + min_distance (pu_param c) <= s <= along + min_distance (pu_param c) + get_lookahead c /\
    goal = translation_from_SE2 (path s) /\
    let rear := rear_of p theta (pp_lr (pu_param c)) in
    (0 < leftward rear theta goal -> 0 < delta) /\
    (leftward rear theta goal < - (pp_eps / 2) * vdist goal rear -> delta < 0).
Proof. exact C38_steering_sign_pf. Qed.
Print Assumptions C38_steering_sign.

(** "Steering is zero when the goal point is straight ahead" does not hold
    exactly: the guard against a division by zero always adds to the left. *)
Theorem C38_straight_ahead_refuted : exists minimize c path p theta along delta, within_bounds minimize /\ ready c path p theta along /\
  (forall s, leftward (rear_of p theta (pp_lr (pu_param c))) theta (translation_from_SE2 (path s)) = 0) /\
  get_desired_steering minimize c = Ok delta /\ delta <> 0.
Proof. exact C38_straight_ahead_refuted_pf. Qed.
Print Assumptions C38_straight_ahead_refuted.

(** It is positive and at most length / lookahead * 1e-9. *)
Theorem C38_straight_ahead_partial : forall minimize c path p theta along delta, within_bounds minimize -> ready c path p theta along ->
  0 < get_lookahead c -> 0 < pp_length (pu_param c) -> get_desired_steering minimize c = Ok delta ->
  (forall s, translation_from_SE2 (path s) <> rear_of p theta (pp_lr (pu_param c)) /\
             leftward (rear_of p theta (pp_lr (pu_param c))) theta (translation_from_SE2 (path s)) = 0) ->
  0 < delta <= pp_length (pu_param c) / get_lookahead c * pp_eps.
Proof. exact C38_straight_ahead_partial_pf. Qed.
Print Assumptions C38_straight_ahead_partial.

(** The controller fails exactly when the guarded sine vanishes or the lookahead
    is zero. *)
Theorem C38_defined : forall minimize c path p theta along, ready c path p theta along -> 0 < get_lookahead c ->
  let goal := translation_from_SE2 (snd (find_goal_point minimize c path (SE2_from_translation_angle p theta) along)) in
  let rear := rear_of p theta (pp_lr (pu_param c)) in
  goal <> rear ->
  ((exists delta, get_desired_steering minimize c = Ok delta) <-> 2 * leftward rear theta goal <> - pp_eps * vdist goal rear).
Proof. exact C38_defined_pf. Qed.
Print Assumptions C38_defined.

(** The goal, if the minimiser finds the minimum: of the points of the path between
    min_distance and min_distance + lookahead further along, one whose distance from the
    vehicle is closest to the lookahead; exactly at the lookahead distance, if one of
    them is. *)
Theorem C38_goal_point : forall minimize c path p theta along, within_bounds minimize -> finds_minimum minimize -> ready c path p theta along -> 0 <= get_lookahead c ->
  continuity (fun s => fst (translation_from_SE2 (path s))) -> continuity (fun s => snd (translation_from_SE2 (path s))) ->
  exists s goal, (forall q, pu_pose c = Some (q, along) -> find_goal_point minimize c path q along = (s, path s)) /\ goal = translation_from_SE2 (path s) /\
    let window x := along + min_distance (pu_param c) <= x <= along + min_distance (pu_param c) + get_lookahead c in
    window s /\ (forall x, window x -> Rabs (vdist p goal - get_lookahead c) <= Rabs (vdist p (translation_from_SE2 (path x)) - get_lookahead c)) /\
    ((exists x, window x /\ vdist p (translation_from_SE2 (path x)) = get_lookahead c) -> vdist p goal = get_lookahead c).
Proof. exact C38_goal_point_pf. Qed.
Print Assumptions C38_goal_point.

Example C38_ex : exists c path delta, ready c path (0, 0) 0 0 /\ 0 < get_lookahead c /\ 0 < pp_length (pu_param c) /\
  get_desired_steering (fun _ lo _ => lo) c = Ok delta /\ within_bounds (fun _ lo _ => lo) /\
  (forall s, leftward (rear_of (0, 0) 0 (pp_lr (pu_param c))) 0 (translation_from_SE2 (path s)) > 0).
Proof.
  set (path := fun s : R => SE2_from_translation_angle (s, 4) 0).
  set (c := update_pose (update_path (pu_new (mkPPP 3 30 1 2 1 1)) path) (SE2_from_translation_angle (0, 0) 0) 0). exists c, path.
  assert (GL : get_lookahead c = 3). { unfold get_lookahead, c. cbn. unfold Rmin, Rmax. destruct (Rle_dec _ _); destruct (Rle_dec _ _); lra. }
  assert (R : ready c path (0, 0) 0 0) by (eexists; split; [reflexivity|split; [reflexivity|apply pose_at_iff; reflexivity]]).
  assert (S : forall s, leftward (rear_of (0, 0) 0 (pp_lr (pu_param c))) 0 (translation_from_SE2 (path s)) = 4).
  { intro s. unfold leftward, rear_of, vcross, vsub, vscale, translation_from_SE2. cbn. rewrite cos_0, sin_0. ring. }
  assert (D : exists d, get_desired_steering (fun _ lo _ => lo) c = Ok d).
  { apply (C38_defined (fun _ lo _ => lo) c path (0, 0) 0 0 R ltac:(lra)).
    - intro E. apply (f_equal snd) in E. unfold rear_of, vsub, vscale, find_goal_point, path in E. cbn in E. rewrite sin_0 in E. lra.
    - cbv zeta. unfold find_goal_point. cbn [snd]. rewrite S. intro E. unfold vdist, pp_eps in E.
      match type of E with _ = _ * vnorm ?x => pose proof (vnorm_nonneg x) as N end. nra. }
  destruct D as [d D]. exists d. split; [exact R|]. split; [lra|]. split; [cbn; lra|]. split; [exact D|]. split; [intros f lo hi L; lra|].
  intro s. rewrite S. lra.
Qed.

(** There is a perfect minimiser, and a line is a continuous path with a point at the
    lookahead distance. *)
Example C38_goal_ex : (exists minimize, within_bounds minimize /\ finds_minimum minimize) /\
  let path := fun s : R => SE2_from_translation_angle (s, 0) 0 in continuity (fun s => fst (translation_from_SE2 (path s))) /\ continuity (fun s => snd (translation_from_SE2 (path s))) /\ vdist (0, 0) (translation_from_SE2 (path 3)) = 3.
Proof.
  split.
  - assert (X : forall q : (R -> R) * R * R, exists m, let '(f, lo, hi) := q in (lo <= hi -> lo <= m <= hi) /\ ((forall x, lo <= x <= hi -> continuity_pt f x) -> forall x, lo <= x <= hi -> f m <= f x)).
    { intros [[f lo] hi]. destruct (Rle_dec lo hi) as [L|L]; [|exists lo; split; intros; lra]. destruct (Classical_Prop.classic (forall x, lo <= x <= hi -> continuity_pt f x)) as [C|C].
      - destruct (continuity_ab_min f lo hi L C) as (m & M & B). exists m. split; [intros _; exact B|]. intros _ x Hx. exact (M x Hx).
      - exists lo. split; [lra|]. intro D. contradiction. }
    exists (fun f lo hi => proj1_sig (constructive_indefinite_description _ (X (f, lo, hi)))). split.
    + intros f lo hi L. exact (proj1 (proj2_sig (constructive_indefinite_description _ (X (f, lo, hi)))) L).
    + intros f lo hi C. exact (proj2 (proj2_sig (constructive_indefinite_description _ (X (f, lo, hi)))) C).
  - cbv zeta. unfold translation_from_SE2, SE2_from_translation_angle. cbn [m02 m12 fst snd]. split; [apply derivable_continuous, derivable_id|]. split; [intro x; apply continuity_pt_const; intros a b; reflexivity|].
    unfold vdist, vnorm, vdot, vsub. cbn [fst snd]. replace ((0 - 3) * (0 - 3) + (0 - 0) * (0 - 0)) with (3 * 3) by ring. apply sqrt_square. lra.
Qed.
