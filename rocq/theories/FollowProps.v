(* Generated from tools/Follow.src by tools/gen_props.py. *)
(** Properties of what lane followers report. *)
From Coq Require Import Reals Lra Psatz Qcanon List Bool String.
From Verif Require Import Base Num R2 SeqModel GeoModel GeoSpec GeoProofs DynModel PursuitModel PursuitSpec PursuitProps FollowModel FollowSpec.
Import ListNotations.
Open Scope R_scope.
From Verif Require Import FollowMain.

(** ** C107 *)

(** Agents that were not asked to report say nothing. *)
Theorem C107_silent : forall minimize c, lf_on_get_extra minimize false c = Ok None.
Proof. exact C107_silent_pf. Qed.
Print Assumptions C107_silent.

(** An agent asked to report gives, right after its commands, one golden line.  The line
    ends on the lane, at a point between min_distance and min_distance plus the
    lookahead further along, and starts on the axis of the vehicle half a wheelbase
    behind the position. *)
Theorem C107_line : forall minimize lf lr given path x y psi along v, within_bounds minimize ->
  let c := lf_observe (lf_pursuit lf lr given path) x y psi along v in
  exists s, golden_line (lf_on_get_extra minimize true c) (rear_of (x, y) psi ((lf + lr) / 2)) (translation_from_SE2 (path s)) /\
    along + 2 <= s <= along + 2 + get_lookahead c /\ 3 <= get_lookahead c <= 30 /\ (3 <= 8 / 10 * v <= 30 -> get_lookahead c = 8 / 10 * v).
Proof. exact C107_line_pf. Qed.
Print Assumptions C107_line.

(** For vehicles with the centre of mass halfway between the axles the line starts at
    the rear axle, and it is the line of sight from which the steering angle of the same
    commands was computed. *)
Theorem C107_line_of_sight : forall minimize l given path x y psi along v delta a b, within_bounds minimize ->
  let c := lf_observe (lf_pursuit l l given path) x y psi along v in
  get_desired_steering minimize c = Ok delta -> golden_line (lf_on_get_extra minimize true c) a b ->
  a = rear_of (x, y) psi l /\
  exists sin_alpha, vdist b a * sin_alpha = leftward a psi b /\ - 1 <= sin_alpha <= 1 /\ - (PI / 2) < delta < PI / 2 /\
    tan delta = 2 * l / get_lookahead c * (2 * sin_alpha + pp_eps).
Proof. exact C107_line_of_sight_pf. Qed.
Print Assumptions C107_line_of_sight.

(** Refuted: for other vehicles the line does not start at the rear axle. *)
Theorem C107_rear_axle_refuted : forall minimize lf lr given path x y psi along v a b, lf <> lr ->
  let c := lf_observe (lf_pursuit lf lr given path) x y psi along v in
  golden_line (lf_on_get_extra minimize true c) a b -> a <> rear_of (x, y) psi lr.
Proof. exact C107_rear_axle_refuted_pf. Qed.
Print Assumptions C107_rear_axle_refuted.

(** Refuted: before its first commands an agent asked to report fails. *)
Theorem C107_before_commands_refuted : forall minimize lf lr given path, lf_on_get_extra minimize true (lf_pursuit lf lr given path) = Err PyTypeError.
Proof. exact C107_before_commands_refuted_pf. Qed.
Print Assumptions C107_before_commands_refuted.

(** Refuted: the controller given to the agent is not used. *)
Theorem C107_given_controller_refuted : forall minimize lf lr given given' path x y psi along v,
  lf_on_get_extra minimize true (lf_observe (lf_pursuit lf lr given path) x y psi along v) = lf_on_get_extra minimize true (lf_observe (lf_pursuit lf lr given' path) x y psi along v).
Proof. exact C107_given_controller_refuted_pf. Qed.
Print Assumptions C107_given_controller_refuted.

Example C107_ex : let minimize := fun (_ : R -> R) lo (_ : R) => lo in within_bounds minimize /\
  golden_line (lf_on_get_extra minimize true (lf_observe (lf_pursuit 1 1 None (fun s => SE2_from_translation_angle (s, 4) 0)) 0 0 0 0 10)) (-1, 0) (2, 4).
Proof.
  split; [intros f lo hi H; lra|]. pose proof (report_eq (fun _ lo _ => lo) 1 1 None (fun s => SE2_from_translation_angle (s, 4) 0) 0 0 0 0 10) as H. cbv zeta in H.
  replace (rear_of (0, 0) 0 ((1 + 1) / 2)) with (-1, 0) in H. 2: { unfold rear_of, vsub, vscale. cbn [fst snd]. rewrite cos_0, sin_0. f_equal; lra. }
  replace (translation_from_SE2 _) with (2, 4) in H; [exact H|]. unfold find_goal_point, translation_from_SE2. cbn. f_equal. ring.
Qed.
