(* Generated from tools/Goal.src by tools/gen_props.py. *)
(** Properties of goals. *)
From Coq Require Import String Reals Lra Psatz List Bool ZArith Lia Arith ClassicalEpsilon.
From Verif Require Import Base R2 GeoModel GeoSpec GeoProofs GeoMain LaneModel LaneSpec LaneProofs LaneMain DataModel DataSpec EvalModel EvalSpec GoalModel GoalSpec GoalProofs.
Import ListNotations.
Open Scope R_scope.
From Verif Require Import GoalMain.

(** ** C86 *)

(** A pose goal is fulfilled exactly when the squared distance of the positions plus
    4 (1 - cos) of the difference of the headings is at most the squared tolerance. *)
Theorem C86_pose_goal : forall polygon (buffer : vec -> vec -> R -> polygon) contains m gp tol st p th t, state_at st p th ->
  (is_fulfilled buffer contains m (PoseGoal gp tol) st t = Ok true <-> 0 <= tol /\ vdist p (t_p gp) ^ 2 + 4 * (1 - cos (th - t_theta gp)) <= tol ^ 2) /\
  (is_fulfilled buffer contains m (PoseGoal gp tol) st t = Ok false <-> tol < 0 \/ tol ^ 2 < vdist p (t_p gp) ^ 2 + 4 * (1 - cos (th - t_theta gp))).
Proof. exact C86_pose_goal_pf. Qed.
Print Assumptions C86_pose_goal.

(** So the position is within the tolerance, and turning by full turns does not matter. *)
Theorem C86_pose_goal_tolerance : forall polygon (buffer : vec -> vec -> R -> polygon) contains m gp tol st p th t, state_at st p th ->
  (is_fulfilled buffer contains m (PoseGoal gp tol) st t = Ok true -> vdist p (t_p gp) <= tol) /\
  (0 <= tol -> p = t_p gp -> same_angle th (t_theta gp) -> is_fulfilled buffer contains m (PoseGoal gp tol) st t = Ok true).
Proof. exact C86_pose_goal_tolerance_pf. Qed.
Print Assumptions C86_pose_goal_tolerance.

(** The other goals depend on the position only, and no goal depends on the time. *)
Theorem C86_position_only : forall polygon (buffer : vec -> vec -> R -> polygon) contains m g st st' p th th' t t', state_at st p th -> state_at st' p th' ->
  (forall gp tol, g = PoseGoal gp tol -> th = th') ->
  is_fulfilled buffer contains m g st t = is_fulfilled buffer contains m g st' t'.
Proof. exact C86_position_only_pf. Qed.
Print Assumptions C86_position_only.

(** A state without position or heading is an error. *)
Theorem C86_no_pose : forall polygon (buffer : vec -> vec -> R -> polygon) contains m g st t f, In f ["x"; "y"]%string -> getattr st f = Err PyAttributeError ->
  (forall k v, getattr st k = Ok v -> is_num v) ->
  is_fulfilled buffer contains m g st t = Err ZValueError.
Proof. exact C86_no_pose_pf. Qed.
Print Assumptions C86_no_pose.

(** The goal at the end of a lane: a strip across the lane, 0.1 m beyond its last control
    point.  [s] and [lat] are measured from the last control point. *)
Theorem C86_lane_end : forall polygon rho (buffer : vec -> vec -> R -> polygon) contains m lane c r, right_buffer rho buffer contains ->
  nth_error lane (length lane - 1) = Some c -> 0 <= cp_r c -> 0 < r ->
  exists g, from_DgLanelet buffer lane r = Ok g /\ forall st s lat th t, state_at st (ahead_left (t_p (cp_q c)) (t_theta (cp_q c)) s lat) th ->
    (is_fulfilled buffer contains m g st t = Ok true -> Rabs (s - 1 / 10) <= r /\ Rabs lat <= cp_r c + r) /\
    (Rabs (s - 1 / 10) < rho * r -> Rabs lat <= cp_r c -> is_fulfilled buffer contains m g st t = Ok true).
Proof. exact C86_lane_end_pf. Qed.
Print Assumptions C86_lane_end.

(** With an inflation radius under 0.1 m the end of the lane is not in its own goal. *)
Theorem C86_lane_end_refuted : forall polygon rho (buffer : vec -> vec -> R -> polygon) contains m lane c r, right_buffer rho buffer contains ->
  nth_error lane (length lane - 1) = Some c -> 0 <= cp_r c -> 0 < r < 1 / 10 ->
  exists g, from_DgLanelet buffer lane r = Ok g /\ forall st th t, state_at st (t_p (cp_q c)) th -> is_fulfilled buffer contains m g st t = Ok false.
Proof. exact C86_lane_end_refuted_pf. Qed.
Print Assumptions C86_lane_end_refuted.

(** A lane goal is never fulfilled before its progress. *)
Theorem C86_not_before : forall polygon rho (buffer : vec -> vec -> R -> polygon) contains m p th d n w g st s lat h t, right_buffer rho buffer contains -> exact_minimizer m ->
  0 < d -> (1 <= n)%nat -> 0 <= w -> 0 <= g <= INR n * d -> state_at st (ahead_left p th s lat) h -> s < g ->
  is_fulfilled buffer contains m (RefLaneGoal (even_lane p th d n w) g) st t = Ok false.
Proof. exact C86_not_before_pf. Qed.
Print Assumptions C86_not_before.

(** With control points one metre apart, a lane goal is fulfilled from its progress on,
    over nearly a metre, across the width of the lane.
    Missing: other spacings (refuted below), bends. *)
Theorem C86_ref_lane_partial : forall polygon rho (buffer : vec -> vec -> R -> polygon) contains m p th n w g st s lat h t, right_buffer rho buffer contains -> exact_minimizer m ->
  (1 <= n)%nat -> 0 <= w -> 0 <= g <= INR n -> state_at st (ahead_left p th s lat) h ->
  (g <= s < g + rho -> Rabs lat <= w -> is_fulfilled buffer contains m (RefLaneGoal (even_lane p th 1 n w) g) st t = Ok true) /\
  (s < g \/ g + 1 < s \/ w + 1 < Rabs lat -> is_fulfilled buffer contains m (RefLaneGoal (even_lane p th 1 n w) g) st t = Ok false).
Proof. exact C86_ref_lane_partial_pf. Qed.
Print Assumptions C86_ref_lane_partial.

(** With few control points the progress, which is in metres, is used as a number of
    control points: no position on the lane fulfils the goal. *)
Theorem C86_ref_lane_refuted : forall polygon rho (buffer : vec -> vec -> R -> polygon) contains m p th d n w g st s lat h t, right_buffer rho buffer contains -> exact_minimizer m ->
  0 < d -> (1 <= n)%nat -> 0 <= w -> INR n + 10 < g < INR n * d -> state_at st (ahead_left p th s lat) h -> s <= INR n * d ->
  is_fulfilled buffer contains m (RefLaneGoal (even_lane p th d n w) g) st t = Ok false.
Proof. exact C86_ref_lane_refuted_pf. Qed.
Print Assumptions C86_ref_lane_refuted.

(** The goals say that they are static, and they are: when is asked makes no difference, not to
    whether a state fulfils the goal and not to where it is drawn. *)
Theorem C86_static : forall polygon (buffer : vec -> vec -> R -> polygon) contains m g,
  is_static g = true <-> forall t t', (forall st, is_fulfilled buffer contains m g st t = is_fulfilled buffer contains m g st t') /\ get_plottable_geometry buffer g t = get_plottable_geometry buffer g t'.
Proof. exact C86_static_pf. Qed.
Print Assumptions C86_static.

(** Only pose goals cannot be drawn. *)
Theorem C86_plot_refuted : forall polygon (buffer : vec -> vec -> R -> polygon) gp tol t, get_plottable_geometry buffer (PoseGoal gp tol) t = Err PyTypeError.
Proof. exact C86_plot_refuted_pf. Qed.
Print Assumptions C86_plot_refuted.

Theorem C86_plot_partial : forall polygon (buffer : vec -> vec -> R -> polygon) t, (forall poly, get_plottable_geometry buffer (PolygonGoal poly) t = Ok poly) /\
  forall lane g, lane <> [] -> exists a b, get_plottable_geometry buffer (RefLaneGoal lane g) t = Ok (buffer a b 1) /\
    exists q r, center_point lane g = Ok q /\ radius lane g = Ok r /\ vdist a b = 2 * Rabs r /\ vscale (1 / 2) (vadd a b) = translation_from_SE2 q.
Proof. exact C86_plot_partial_pf. Qed.
Print Assumptions C86_plot_partial.

Example C86_ex : right_buffer 1 (fun a b r => (a, b, r)) ex_contains /\ (exists m, exact_minimizer m) /\
  state_at (ex_state 49 1 2) (ahead_left (0, 0) 0 49 1) 2 /\ INR 1 + 10 < 49 < INR 1 * 100 /\ state_at (ex_state 3 4 (PI / 2)) (3, 4) (PI / 2) /\
  (forall m, is_fulfilled (fun a b r => (a, b, r)) ex_contains m (PoseGoal (mkSE2T (3, 4) (PI / 2 + 2 * PI)) (1 / 10)) (ex_state 3 4 (PI / 2)) 0 = Ok true) /\
  (forall m, is_fulfilled (fun a b r => (a, b, r)) ex_contains m (PoseGoal (mkSE2T (3, 4) 0) 1) (ex_state 3 4 (PI / 2)) 0 = Ok false).
Proof.
  split; [exact ex_buffer|]. split; [exact minimizer_exists|]. split. { replace (ahead_left (0, 0) 0 49 1) with (49, 1) by (unfold ahead_left; rewrite cos_0, sin_0; cbn [fst snd]; f_equal; ring). apply ex_state_at. }
  split; [cbn; lra|]. split; [apply ex_state_at|]. split; intro m.
  - apply (proj2 (C86_pose_goal_tolerance _ _ ex_contains m (mkSE2T (3, 4) (PI / 2 + 2 * PI)) (1 / 10) _ _ _ 0 (ex_state_at 3 4 (PI / 2)))); [lra|reflexivity|]. cbn [t_theta]. replace (PI / 2 + 2 * PI) with (PI / 2 + 2 * INR 1 * PI) by (cbn [INR]; ring). split; [rewrite cos_period|rewrite sin_period]; reflexivity.
  - apply (proj2 (C86_pose_goal _ _ ex_contains m (mkSE2T (3, 4) 0) 1 _ _ _ 0 (ex_state_at 3 4 (PI / 2)))). right. cbn [t_p t_theta]. rewrite Rminus_0_r, cos_PI2, (proj2 (vdist_zero _ _) eq_refl). lra.
Qed.

(** A goal half way along a lane of 100 m with two control points: the position there
    does not fulfil it. *)
Example C86_ref_lane_ex : forall m, exact_minimizer m -> is_fulfilled (fun a b r => (a, b, r)) ex_contains m (RefLaneGoal (even_lane (0, 0) 0 100 1 2) 49) (ex_state 49 1 2) 0 = Ok false.
Proof.
  intros m M. assert (S : state_at (ex_state 49 1 2) (ahead_left (0, 0) 0 49 1) 2) by (replace (ahead_left (0, 0) 0 49 1) with (49, 1) by (unfold ahead_left; rewrite cos_0, sin_0; cbn [fst snd]; f_equal; ring); apply ex_state_at).
  apply (C86_ref_lane_refuted _ 1 _ ex_contains m (0, 0) 0 100 1 2 49 _ 49 1 2 0 ex_buffer M); try lra; try lia; try exact S; cbn; lra.
Qed.
