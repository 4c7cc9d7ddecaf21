(** Model of src/dg_commons/controllers/pure_pursuit.py, over the reals.
    External: the path (DgLanelet) gives the pose of its centre line at an
    along-lane coordinate (center_point o beta_from_along_lane, modelled in
    LaneModel.v); scipy's bounded scalar minimiser is an arbitrary function of the
    objective and the bounds. *)
From Coq Require Import Reals List Bool.
From Verif Require Import Base R2 GeoModel.
Open Scope R_scope.

(** PurePursuitParam, pure_pursuit.py:16-30. *)
Record pp_param := mkPPP { pp_lo : R; pp_hi : R; k_lookahead : R; min_distance : R; pp_length : R; pp_lr : R }.
(** The defaults; from_vehicle_geo, pure_pursuit.py:31-33. *)
Definition pp_default : pp_param := mkPPP 3 30 (8 / 10) 2 (35 / 10) (35 / 10 / 2).
Definition pp_from_vehicle_geo (wheelbase lr : R) : pp_param := mkPPP 3 30 (8 / 10) 2 wheelbase lr.

(** A path: its centre line.  Used for [pursuit], pure_pursuit.py:44-66. *)
Definition pp_path : Type := R -> mat.

(** PurePursuit, pure_pursuit.py:44-66.  [pose] and [along_path] are set
    together by update_pose. *)
Record pursuit := mkPur { pu_param : pp_param; pu_path : option pp_path; pu_pose : option (mat * R); pu_speed : R }.
Definition pu_new (p : pp_param) : pursuit := mkPur p None None 0.
Definition update_path (c : pursuit) (p : pp_path) : pursuit := mkPur (pu_param c) (Some p) (pu_pose c) (pu_speed c).
Definition update_pose (c : pursuit) (q : mat) (along : R) : pursuit := mkPur (pu_param c) (pu_path c) (Some (q, along)) (pu_speed c).
Definition update_speed (c : pursuit) (v : R) : pursuit := mkPur (pu_param c) (pu_path c) (pu_pose c) v.

(** _get_lookahead, pure_pursuit.py:107-112 (np.clip(x, a, b) is
    min(max(x, a), b)). *)
Definition get_lookahead (c : pursuit) : R := Rmin (Rmax (k_lookahead (pu_param c) * pu_speed c) (pp_lo (pu_param c))) (pp_hi (pu_param c)).

Section Opt.
(** scipy.optimize.minimize_scalar(fun, bounds=(lo, hi), method="Bounded").x *)
Context (minimize : (R -> R) -> R -> R -> R).

(** find_goal_point, pure_pursuit.py:68-90. *)
Definition find_goal_point (c : pursuit) (path : pp_path) (pose : mat) (along : R) : R * mat :=
  let lookahead := get_lookahead c in
  let goal_point_error s := Rabs (norm_between_SE2value pose (path s) - lookahead) in
  let min_along_path := along + min_distance (pu_param c) in
  let x := minimize goal_point_error min_along_path (min_along_path + lookahead) in
  (x, path x).

(** eps = 1e-9.  Used for [get_desired_steering], pure_pursuit.py:92-104. *)
Definition pp_eps : R := 1 / 1000000000.

(** get_desired_steering, pure_pursuit.py:92-104. *)
Definition get_desired_steering (c : pursuit) : result R :=
  match pu_pose c, pu_path c with
  | Some (pose, along), Some path =>
      let theta := angle_from_SE2 pose in
      let rear_axle := SE2_apply_T2 pose (- pp_lr (pu_param c), 0) in
      let '(_, goal_point) := find_goal_point c path pose along in
      let '(p_goal, theta_goal) := translation_angle_from_SE2 goal_point in
      let alpha := atan2 (snd p_goal - snd rear_axle) (fst p_goal - fst rear_axle) - theta in
      let den := 2 * sin alpha + pp_eps in
      if Req_EM_T den 0 then Err PyZeroDivisionError
      else let radius := get_lookahead c / den in
           if Req_EM_T radius 0 then Err PyZeroDivisionError
           else Ok (atan (pp_length (pu_param c) / radius))
  | _, _ => Err PyRuntimeError
  end.
End Opt.
