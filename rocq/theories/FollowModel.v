(** Model of what a lane follower reports for drawing: LFAgent.on_get_extra
    (src/dg_commons/sim/agents/lane_follower.py). *)
From Coq Require Import Reals Qcanon List Bool String.
From Verif Require Import Base Num R2 SeqModel GeoModel DynModel PursuitModel.
Import ListNotations.
Open Scope R_scope.

(** The pure pursuit controller of an agent: made by from_model_geometry,
    pure_pursuit.py:114-117 (the controller given to the constructor is not looked at,
    lane_follower.py:38), with the lane given to it by on_episode_init,
    lane_follower.py:48. *)
Definition lf_pursuit (lf lr : R) (given : option pursuit) (path : pp_path) : pursuit := update_path (pu_new (pp_from_vehicle_geo (lf + lr) lr)) path.
(** What get_commands does to it, lane_follower.py:50-67: the pose of the observed state,
    the along-lane coordinate and the reference speed. *)
Definition lf_observe (c : pursuit) (x y psi along speed_ref : R) : pursuit := update_speed (update_pose c (SE2_from_translation_angle (x, y) psi) along) speed_ref.

(** on_get_extra, lane_follower.py:80-102.  Without a pose along_path is None, and None
    cannot be added to min_distance; without a path there is no center_point. *)
Definition lf_on_get_extra (minimize : (R -> R) -> R -> R -> R) (return_extra : bool) (c : pursuit) : result (option (list (seq vst * string))) :=
  if negb return_extra then Ok None
  else match pu_pose c, pu_path c with
  | None, _ => Err PyTypeError
  | Some _, None => Err PyAttributeError
  | Some (pose, along), Some path =>
      let '(_, gpoint) := find_goal_point minimize c path pose along in
      let pgoal := translation_from_SE2 gpoint in
      let l := pp_length (pu_param c) in
      let rear_axle := SE2_apply_T2 pose (- l / 2, 0) in
      match new_seq true [qz 0; qz 1] [mkV (fst rear_axle) (snd rear_axle) 0 0 0; mkV (fst pgoal) (snd pgoal) 0 1 0] with
      | Err e => Err e
      | Ok traj => Ok (Some [(traj, "gold"%string)])
      end
  end.
