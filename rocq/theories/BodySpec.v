(** Vocabulary of the statements on bodies. *)
From Coq Require Import String Reals List Bool.
From Verif Require Import Base R2 GeoModel.
Import ListNotations.
Open Scope R_scope.

(** In the axis-parallel box. *)
Definition in_box (x0 x1 y0 y1 : R) (p : vec) : Prop := x0 <= fst p <= x1 /\ y0 <= snd p <= y1.
(** The position in the world of the point with coordinates [v] in the frame of a body
    with pose (p, th). *)
Definition in_world (p : vec) (th : R) (v : vec) : vec := (fst p + fst v * cos th - snd v * sin th, snd p + fst v * sin th + snd v * cos th).
(** In the triangle with the given corners. *)
Definition in_triangle (t : vec * vec * vec) (p : vec) : Prop :=
  let '(a, b, c) := t in exists u v w, 0 <= u /\ 0 <= v /\ 0 <= w /\ u + v + w = 1 /\ p = vadd (vscale u a) (vadd (vscale v b) (vscale w c)).
(** Reflection in a point, rings that are symmetric about a point, and a function that is
    right about the centroid of these. *)
Definition reflect (c v : vec) : vec := (2 * fst c - fst v, 2 * snd c - snd v).
Definition central (ring : list vec) (c : vec) : Prop := exists v h, let half := v :: h in ring = half ++ map (reflect c) half ++ [v].
Definition right_centroid (centroid : list vec -> vec) : Prop := forall ring c, central ring c -> centroid ring = c.
(** The ring of the corners of the box from [x0] to [x1] and from [- y] to [y], from the
    back right corner clockwise. *)
Definition box_ring (x0 x1 y : R) : list vec := [(x0, - y); (x0, y); (x1, y); (x1, - y); (x0, - y)].
(** The vehicle types with an outline. *)
Definition vehicle_types : list string := ["car"; "truck"; "motorcycle"; "bicycle"]%string.
(** A wheel from above, of half width [t] and radius [r], straight ahead. *)
Definition box_wheel (t r : R) : list vec := [(r, - t); (- r, - t); (- r, t); (r, t); (r, - t)].
