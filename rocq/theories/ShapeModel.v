(** Model of src/dg_commons/maps/shapes_generator.py, over the reals. *)
From Coq Require Import Reals List Bool ZArith.
From Verif Require Import Base R2 LaneModel SensorModel.
Import ListNotations.
Open Scope R_scope.

(** create_star_polygon, shapes_generator.py:10-26. *)
Definition create_star_polygon (x y p t : R) : list vec :=
  flat_map (fun i => [(x, y + i * p); (x + i * t, y + i * t); (x + i * p, y); (x + i * t, y - i * t)]) [-1; 1].

(** np.clip(x, lo, hi).
    Used for [raw_steps], shapes_generator.py:45-56; [points_loop], shapes_generator.py:66-71. *)
Definition clip (x lo hi : R) : R := Rmin (Rmax x lo) hi.

Section Random.
(** The random numbers: random.uniform(a, b) is a + (b - a) * u with the next u of [us] or
    [u0], and random.gauss(mu, sigma) is mu + sigma * z with the next z of [zs]. *)
Variable us : nat -> R.
Variable u0 : R.
Variable zs : nat -> R.

(** angleSteps before they are normalised, shapes_generator.py:45-56. *)
Definition raw_steps (irregularity : R) (n : Z) : list R :=
  let irregularity := clip irregularity 0 1 * 2 * PI / IZR n in
  let lower := 2 * PI / IZR n - irregularity in
  let upper := 2 * PI / IZR n + irregularity in
  map (fun i => lower + (upper - lower) * us i) (List.seq 0 (Z.to_nat n)).
(** The last loop, shapes_generator.py:66-71. *)
Fixpoint points_loop (ctr : vec) (avg_radius spikiness : R) (i : nat) (angle : R) (steps : list R) : list (Z * Z) :=
  match steps with
  | [] => []
  | s :: rest =>
      let r_i := clip (avg_radius + spikiness * zs i) 0 (2 * avg_radius) in
      let x := fst ctr + r_i * cos angle in
      let y := snd ctr + r_i * sin angle in
      (py_int x, py_int y) :: points_loop ctr avg_radius spikiness (S i) (angle + s) rest
  end.
(** create_random_starshaped_polygon, shapes_generator.py:29-73.  If all steps are zero the
    division by k (of numpy numbers) gives nan, and int(nan) fails at the second vertex. *)
Definition create_random_starshaped_polygon (ctr : vec) (avg_radius irregularity spikiness : R) (n_vertices : Z) : result (list (Z * Z)) :=
  if (n_vertices =? 0)%Z then Err PyZeroDivisionError
  else
    let spikiness := clip spikiness 0 1 * avg_radius in
    let angleSteps := raw_steps irregularity n_vertices in
    let k := rsum angleSteps / (2 * PI) in
    let angle := 0 + (2 * PI - 0) * u0 in
    if Req_EM_T k 0 then
      if (2 <=? n_vertices)%Z then Err PyValueError
      else Ok (points_loop ctr avg_radius spikiness 0 angle angleSteps)
    else Ok (points_loop ctr avg_radius spikiness 0 angle (map (fun s => s / k) angleSteps)).
End Random.
