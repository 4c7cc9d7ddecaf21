(** Model of src/dg_commons/perception/sensor.py, over the reals. *)
From Coq Require Import Reals List Bool ZArith.
From Verif Require Import Base R2 LaneModel BodyModel.
Import ListNotations.
Open Scope R_scope.

(** The fields of a sensor, sensor.py:14-18: the pose is a position and a heading. *)
Record sensor := mkSensor { s_p : vec; s_theta : R; s_range : R; s_fov : R; s_resolution : R }.
(** The constructor, sensor.py:15-23. *)
Definition make_sensor (p : vec) (theta range fov : R) : result sensor :=
  if Req_EM_T range 0 then Err PyZeroDivisionError
  else
    let angle_resolution := atan (1 / range) in
    if leb fov (2 * PI) then
      if leb 0 range then Ok (mkSensor p theta range fov angle_resolution)
      else Err PyAssertionError
    else Err PyAssertionError.
(** is_omnidirectional, sensor.py:29-30. *)
Definition is_omnidirectional (s : sensor) : bool := ltb (2 * PI - s_resolution s) (s_fov s).

(** FullRangeSensor.fov_as_polygon, sensor.py:35-45: the vertices of Point.buffer, a regular
    polygon (see [circle]).  NotImplementedError is [PyOther]. *)
Definition full_range_fov (quad : nat) (s : sensor) : result (list vec) :=
  if is_omnidirectional s then Ok (map (vadd (s_p s)) (circle quad (s_range s))) else Err PyOther.

(** int(x): truncation towards zero.  Used for [ray_angles], sensor.py:56-57. *)
Definition py_int (x : R) : Z := if leb 0 x then Int_part x else (- Int_part (- x))%Z.
(** np.linspace(a, b, num).  Used for [ray_angles], sensor.py:56-57. *)
Definition linspace (a b : R) (num : Z) : result (list R) :=
  if (num <? 0)%Z then Err PyValueError
  else let n := Z.to_nat num in
       Ok (map (fun i => if (n =? 1)%nat then a else a + INR i * ((b - a) / INR (n - 1))) (List.seq 0 n)).

Section Rays.
(** cc.raytrace of the checker with all obstacles, from a point to another: where the ray
    enters and leaves an obstacle, for each hit. *)
Variable raytrace : vec -> vec -> list (vec * vec).

(** Squared distances, sensor.py:75-76. *)
Definition sqd (p q : vec) : R := (fst q - fst p) ^ 2 + (snd q - snd p) ^ 2.
(** ray_end, sensor.py:64. *)
Definition ray_end (s : sensor) (angle : R) : vec := (fst (s_p s) + s_range s * cos angle, snd (s_p s) + s_range s * sin angle).
(** The loop over the hits, sensor.py:72-82; the state is closest_hit with its distance. *)
Definition hits_step (p : vec) (best : vec * R) (ray_hit : vec * vec) : vec * R :=
  let '(hit_in, hit_out) := ray_hit in
  let best := if ltb (sqd p hit_in) (snd best) then (hit_in, sqd p hit_in) else best in
  if ltb (sqd p hit_out) (snd best) then (hit_out, sqd p hit_out) else best.
Definition hits_loop (p : vec) (hits : list (vec * vec)) (best : vec * R) : vec * R := fold_left (hits_step p) hits best.
(** The vertex of one ray, sensor.py:63-83. *)
Definition ray_vertex (s : sensor) (angle : R) : vec :=
  let e := ray_end s angle in
  match raytrace (s_p s) e with
  | [] => e
  | hits => fst (hits_loop (s_p s) hits (e, s_range s ^ 2))
  end.
(** ray_angles, sensor.py:56-57.  fov / resolution: the resolution is never zero. *)
Definition ray_angles (s : sensor) : result (list R) :=
  let num_ray_angles := (py_int (s_fov s / s_resolution s) + 1)%Z in
  bind (linspace (- s_fov s / 2) (s_fov s / 2) num_ray_angles) (fun l => Ok (map (fun a => s_theta s + a) l)).
(** VisRangeSensor.fov_as_polygon, sensor.py:50-86: the vertices given to Polygon. *)
Definition vis_range_fov (s : sensor) : result (list vec) :=
  bind (ray_angles s) (fun angles =>
  let vertices := (if is_omnidirectional s then [] else [s_p s]) ++ map (ray_vertex s) angles in
  bind (item vertices 0) (fun v0 => Ok (vertices ++ [v0]))).
End Rays.
