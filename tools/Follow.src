(** Properties of what lane followers report. *)
From Coq Require Import Reals Lra Psatz Qcanon List Bool String.
From Verif Require Import Base Num R2 SeqModel GeoModel GeoSpec GeoProofs DynModel PursuitModel PursuitSpec PursuitProps FollowModel FollowSpec.
Import ListNotations.
Open Scope R_scope.
(* BODY *)

(** ** C107 *)

(** Agents that were not asked to report say nothing. *)
Theorem C107_silent : forall minimize c, lf_on_get_extra minimize false c = Ok None.
Proof. reflexivity. Qed.

Lemma observed_pose lf lr given path x y psi along v : ready (lf_observe (lf_pursuit lf lr given path) x y psi along v) path (x, y) psi along.
Proof. eexists. split; [reflexivity|]. split; [reflexivity|]. apply pose_at_iff. reflexivity. Qed.

Lemma observed_lookahead lf lr given path x y psi along v : 3 <= get_lookahead (lf_observe (lf_pursuit lf lr given path) x y psi along v) <= 30.
Proof. unfold get_lookahead. cbn. split; [apply Rmin_glb; [apply Rmax_r|lra]|apply Rmin_r]. Qed.

Lemma report_eq minimize lf lr given path x y psi along v : let c := lf_observe (lf_pursuit lf lr given path) x y psi along v in
  golden_line (lf_on_get_extra minimize true c) (rear_of (x, y) psi ((lf + lr) / 2)) (translation_from_SE2 (snd (find_goal_point minimize c path (SE2_from_translation_angle (x, y) psi) along))).
Proof.
  cbv zeta. set (c := lf_observe _ _ _ _ _ _). unfold lf_on_get_extra. cbn [negb]. change (pu_pose c) with (Some (SE2_from_translation_angle (x, y) psi, along)). change (pu_path c) with (Some path). cbv iota beta. change (pp_length (pu_param c)) with (lf + lr).
  destruct (find_goal_point minimize c path (SE2_from_translation_angle (x, y) psi) along) as [s g]. cbn [snd].
  eexists. split; [reflexivity|]. split; [reflexivity|]. cbn [vals map v_x v_y]. rewrite <- !surjective_pairing. apply (f_equal (fun q => [q; translation_from_SE2 g])).
  unfold SE2_apply_T2, rear_of, vsub, vscale. cbn [SE2_from_translation_angle m00 m01 m02 m10 m11 m12 fst snd]. f_equal; unfold Rdiv; ring.
Qed.

(** An agent asked to report gives, right after its commands, one golden line.  The line
    ends on the lane, at a point between min_distance and min_distance plus the
    lookahead further along, and starts on the axis of the vehicle half a wheelbase
    behind the position. *)
Theorem C107_line : forall minimize lf lr given path x y psi along v, within_bounds minimize ->
  let c := lf_observe (lf_pursuit lf lr given path) x y psi along v in
  exists s, golden_line (lf_on_get_extra minimize true c) (rear_of (x, y) psi ((lf + lr) / 2)) (translation_from_SE2 (path s)) /\
    along + 2 <= s <= along + 2 + get_lookahead c /\ 3 <= get_lookahead c <= 30 /\ (3 <= 8 / 10 * v <= 30 -> get_lookahead c = 8 / 10 * v).
Proof.
  intros minimize lf lr given path x y psi along v W c. pose proof (observed_lookahead lf lr given path x y psi along v) as L. fold c in L.
  exists (fst (find_goal_point minimize c path (SE2_from_translation_angle (x, y) psi) along)). split; [exact (report_eq minimize lf lr given path x y psi along v)|]. split.
  - unfold find_goal_point. cbn [fst]. change (min_distance (pu_param c)) with 2. apply W. lra.
  - split; [exact L|]. intros [H1 H2]. unfold get_lookahead. cbn. rewrite Rmax_left, Rmin_left by lra. reflexivity.
Qed.

(** For vehicles with the centre of mass halfway between the axles the line starts at
    the rear axle, and it is the line of sight from which the steering angle of the same
    commands was computed. *)
Theorem C107_line_of_sight : forall minimize l given path x y psi along v delta a b, within_bounds minimize ->
  let c := lf_observe (lf_pursuit l l given path) x y psi along v in
  get_desired_steering minimize c = Ok delta -> golden_line (lf_on_get_extra minimize true c) a b ->
  a = rear_of (x, y) psi l /\
  exists sin_alpha, vdist b a * sin_alpha = leftward a psi b /\ - 1 <= sin_alpha <= 1 /\ - (PI / 2) < delta < PI / 2 /\
    tan delta = 2 * l / get_lookahead c * (2 * sin_alpha + pp_eps).
Proof.
  intros minimize l given path x y psi along v delta a b W c Hd Hg.
  assert (K : a = rear_of (x, y) psi l /\ b = translation_from_SE2 (snd (find_goal_point minimize c path (SE2_from_translation_angle (x, y) psi) along))).
  { destruct (report_eq minimize l l given path x y psi along v) as (s & E & T & V). fold c in E, V. destruct Hg as (s' & E' & T' & V'). rewrite E in E'. injection E' as <-. rewrite V in V'. injection V' as E1 E2. split; [|symmetry; exact E2]. rewrite <- E1. f_equal. lra. }
  destruct K as [Ea Eb]. split; [exact Ea|]. set (g := snd (find_goal_point minimize c path (SE2_from_translation_angle (x, y) psi) along)) in *.
  pose (c' := lf_observe (lf_pursuit l l given (fun _ => g)) x y psi along v).
  assert (Hd' : get_desired_steering minimize c' = Ok delta).
  { rewrite <- Hd. unfold get_desired_steering. change (pu_pose c') with (pu_pose c). change (pu_path c') with (Some (fun _ : R => g)). change (pu_path c) with (Some path). change (pu_pose c) with (Some (SE2_from_translation_angle (x, y) psi, along)). cbv iota beta.
    change (get_lookahead c') with (get_lookahead c). change (pu_param c') with (pu_param c). destruct (find_goal_point minimize c' (fun _ => g) (SE2_from_translation_angle (x, y) psi) along) as [s1 g1] eqn:E1. assert (G1 : g1 = g) by (unfold find_goal_point in E1; injection E1 as _ <-; reflexivity).
    destruct (find_goal_point minimize c path (SE2_from_translation_angle (x, y) psi) along) as [s2 g2] eqn:E2. cbn [snd] in g. subst g1. reflexivity. }
  pose proof (observed_lookahead l l given (fun _ => g) x y psi along v) as L. fold c' in L.
  destruct (C38_steering_law minimize c' (fun _ => g) (x, y) psi along delta W (observed_pose l l given (fun _ => g) x y psi along v) ltac:(lra) Hd') as (s & goal & _ & -> & sa & S1 & S2 & S3 & S4).
  exists sa. rewrite Ea, Eb. change (pp_lr (pu_param c')) with l in *. split; [exact S1|]. split; [exact S2|]. split; [exact S3|]. rewrite S4. change (pp_length (pu_param c')) with (l + l). change (get_lookahead c') with (get_lookahead c). replace (l + l) with (2 * l) by ring. reflexivity.
Qed.

(** Refuted: for other vehicles the line does not start at the rear axle. *)
Theorem C107_rear_axle_refuted : forall minimize lf lr given path x y psi along v a b, lf <> lr ->
  let c := lf_observe (lf_pursuit lf lr given path) x y psi along v in
  golden_line (lf_on_get_extra minimize true c) a b -> a <> rear_of (x, y) psi lr.
Proof.
  intros minimize lf lr given path x y psi along v a b N c Hg E. destruct (report_eq minimize lf lr given path x y psi along v) as (s & E0 & T & V). fold c in E0, V. destruct Hg as (s' & E' & T' & V'). rewrite E0 in E'. injection E' as <-. rewrite V in V'. injection V' as E1 E2. rewrite E in E1. unfold rear_of, vsub, vscale in E1. cbn [fst snd] in E1. injection E1 as X Y.
  pose proof (cs1 psi) as C. apply N. set (cc := cos psi) in *. set (ss := sin psi) in *. set (k := (lf + lr) / 2) in *.
  assert (K : (k - lr) * (cc * cc + ss * ss) = 0) by (assert (A1 : k * cc = lr * cc) by lra; assert (A2 : k * ss = lr * ss) by lra; transitivity (cc * (k * cc - lr * cc) + ss * (k * ss - lr * ss)); [ring|rewrite A1, A2; ring]). rewrite C in K. unfold k in K. lra.
Qed.

(** Refuted: before its first commands an agent asked to report fails. *)
Theorem C107_before_commands_refuted : forall minimize lf lr given path, lf_on_get_extra minimize true (lf_pursuit lf lr given path) = Err PyTypeError.
Proof. reflexivity. Qed.

(** Refuted: the controller given to the agent is not used. *)
Theorem C107_given_controller_refuted : forall minimize lf lr given given' path x y psi along v,
  lf_on_get_extra minimize true (lf_observe (lf_pursuit lf lr given path) x y psi along v) = lf_on_get_extra minimize true (lf_observe (lf_pursuit lf lr given' path) x y psi along v).
Proof. reflexivity. Qed.

Example C107_ex : let minimize := fun (_ : R -> R) lo (_ : R) => lo in within_bounds minimize /\
  golden_line (lf_on_get_extra minimize true (lf_observe (lf_pursuit 1 1 None (fun s => SE2_from_translation_angle (s, 4) 0)) 0 0 0 0 10)) (-1, 0) (2, 4).
Proof.
  split; [intros f lo hi H; lra|]. pose proof (report_eq (fun _ lo _ => lo) 1 1 None (fun s => SE2_from_translation_angle (s, 4) 0) 0 0 0 0 10) as H. cbv zeta in H.
  replace (rear_of (0, 0) 0 ((1 + 1) / 2)) with (-1, 0) in H. 2: { unfold rear_of, vsub, vscale. cbn [fst snd]. rewrite cos_0, sin_0. f_equal; lra. }
  replace (translation_from_SE2 _) with (2, 4) in H; [exact H|]. unfold find_goal_point, translation_from_SE2. cbn. f_equal. ring.
Qed.
