(** Model of src/dg_commons/sim/goals.py, over the reals. *)
From Coq Require Import String Reals List Bool.
From Verif Require Import Base R2 GeoModel LaneModel DataModel.
Import ListNotations.
Open Scope R_scope.

(** A state is an object with attributes (DataModel.obj); the pose of a state is the
    3x3 array made by extract_pose_from_state, models/utils.py:27-37. *)
Definition pose_of (st : obj) : result mat :=
  LaneModel.bind (extract_pose_from_state st) (fun p => Ok (SE2_from_translation_angle (fst p) (snd p))).

Section Goals.
(** shapely: LineString([a, b]).buffer(radius), and Polygon.contains(Point(p)). *)
Context {polygon : Type} (buffer : vec -> vec -> R -> polygon) (contains : polygon -> vec -> bool).
Variable minimize_scalar : minimizer.

(** _polygon_at_along_lane, goals.py:65-79; [at_beta] is None by default. *)
Definition polygon_at_along_lane (lane : lanelet) (at_beta : option R) (inflation_radius : R) : result polygon :=
  let maxbeta := match at_beta with Some b => b | None => INR (length lane) end in
  LaneModel.bind (center_point lane maxbeta) (fun q =>
  LaneModel.bind (radius lane maxbeta) (fun r =>
  let point_left := SE2_apply_T2 q (0, r) in
  let point_right := SE2_apply_T2 q (0, - r) in
  Ok (buffer point_left point_right inflation_radius))).

(** RefLaneGoal, PolygonGoal and PoseGoal, goals.py:41-45, 82-84, 99-102. *)
Inductive goal :=
| RefLaneGoal (ref_lane : lanelet) (goal_progress : R)
| PolygonGoal (p : polygon)
| PoseGoal (goal_pose : SE2Transform) (tol : R).

(** RefLaneGoal.goal_polygon, goals.py:59-62 (cached; the goal is frozen). *)
Definition goal_polygon (lane : lanelet) (progress : R) : result polygon := polygon_at_along_lane lane (Some progress) 1.

(** PolygonGoal.from_DgLanelet, goals.py:86-89. *)
Definition from_DgLanelet (lane : lanelet) (inflation_radius : R) : result goal :=
  LaneModel.bind (polygon_at_along_lane lane None inflation_radius) (fun p => Ok (PolygonGoal p)).

(** np.linalg.norm of the difference of two arrays with equal last rows: the square root
    of the sum of the squares of the entries.
    Used for [is_fulfilled], goals.py:47-54. *)
Definition frobenius (a b : mat) : R :=
  sqrt ((m00 a - m00 b) ^ 2 + (m01 a - m01 b) ^ 2 + (m02 a - m02 b) ^ 2 + (m10 a - m10 b) ^ 2 + (m11 a - m11 b) ^ 2 + (m12 a - m12 b) ^ 2).

(** is_fulfilled, goals.py:47-54, 91-94, 104-107; the time is not used. *)
Definition is_fulfilled (g : goal) (state : obj) (at_ : R) : result bool :=
  match g with
  | RefLaneGoal lane progress =>
      LaneModel.bind (pose_of state) (fun pose =>
      let xy := translation_from_SE2 pose in
      LaneModel.bind (goal_polygon lane progress) (fun poly =>
      if contains poly xy then
        LaneModel.bind (lane_pose_from_SE2_generic minimize_scalar lane pose (1 / 1000)) (fun lp => Ok (leb progress (lp_along_lane lp)))
      else Ok false))
  | PolygonGoal poly =>
      LaneModel.bind (pose_of state) (fun pose => Ok (contains poly (translation_from_SE2 pose)))
  | PoseGoal goal_pose tol =>
      LaneModel.bind (pose_of state) (fun pose => Ok (leb (frobenius pose (as_SE2 goal_pose)) tol))
  end.

(** get_plottable_geometry, goals.py:56-57, 96-97, 109-110: the last one raises the
    polygon, which is not an exception. *)
Definition get_plottable_geometry (g : goal) (at_ : R) : result polygon :=
  match g with
  | RefLaneGoal lane progress => goal_polygon lane progress
  | PolygonGoal poly => Ok poly
  | PoseGoal _ _ => Err PyTypeError
  end.
(** is_static, goals.py:32-35. *)
Definition is_static (g : goal) : bool := true.
End Goals.
