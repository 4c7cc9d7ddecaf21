(** Model of the outlines, wheels, lights and meshes of vehicles and differential drive
    robots: models/vehicle_structures.py, models/diff_drive_structures.py, get_footprint
    and get_mesh of models/vehicle.py and models/diff_drive.py; over the reals. *)
From Coq Require Import String Reals List Bool Arith.
From Verif Require Import Base R2 GeoModel LaneModel.
Import ListNotations.
Open Scope R_scope.
Local Open Scope string_scope.

(** VehicleGeometry, vehicle_structures.py:25-47, without mass, drag and colour.  A
    model type is a string, model_structures.py:26-38. *)
Record vehicle_geometry := mkVG { g_type : string; g_w_half : R; g_lf : R; g_lr : R }.
Definition FourWheelsTypes : list string := ["car"; "truck"].
Definition four (t : string) : bool := existsb (String.eqb t) FourWheelsTypes.

(** wheel_shape, vehicle_structures.py:156-166: (half width, radius). *)
Definition wheel_shape (g : vehicle_geometry) : result (R * R) :=
  if String.eqb (g_type g) "car" then Ok (1 / 10, 3 / 10)
  else if String.eqb (g_type g) "truck" then Ok (2 / 10, 4 / 10)
  else if String.eqb (g_type g) "motorcycle" || String.eqb (g_type g) "bicycle" then Ok (5 / 100, 3 / 10)
  else Err ZValueError.
(** bumpers_length, vehicle_structures.py:137-146: (front, back). *)
Definition bumpers_length (g : vehicle_geometry) : result (R * R) :=
  bind (wheel_shape g) (fun s => let radius := snd s in
  let frontbumper := if four (g_type g) then g_lf g / 2 else radius in
  Ok (frontbumper, radius * 2)).
(** width, wheelbase, length, vehicle_structures.py:110-122. *)
Definition width (g : vehicle_geometry) : R := g_w_half g * 2.
Definition wheelbase (g : vehicle_geometry) : R := g_lf g + g_lr g.
Definition vlength (g : vehicle_geometry) : result R := bind (bumpers_length g) (fun b => Ok (wheelbase g + (fst b + snd b))).
(** outline, vehicle_structures.py:124-135. *)
Definition outline (g : vehicle_geometry) : result (list vec) :=
  bind (wheel_shape g) (fun s => let tyre_halfw := fst s in
  bind (bumpers_length g) (fun b => let frontbumper := fst b in let backbumper := snd b in
  Ok [(- g_lr g - backbumper, - g_w_half g - tyre_halfw);
      (- g_lr g - backbumper, g_w_half g + tyre_halfw);
      (g_lf g + frontbumper, g_w_half g + tyre_halfw);
      (g_lf g + frontbumper, - g_w_half g - tyre_halfw);
      (- g_lr g - backbumper, - g_w_half g - tyre_halfw)])).
(** wheel_outline, vehicle_structures.py:168-178. *)
Definition wheel_ring (halfwidth radius : R) : list vec :=
  [(radius, - halfwidth); (- radius, - halfwidth); (- radius, halfwidth); (radius, halfwidth); (radius, - halfwidth)].
Definition wheel_outline (g : vehicle_geometry) : result (list vec) := bind (wheel_shape g) (fun s => Ok (wheel_ring (fst s) (snd s))).
(** wheels_position, vehicle_structures.py:180-194: no look at the type other than the
    number of wheels. *)
Definition wheels_position (g : vehicle_geometry) : list vec :=
  if four (g_type g) then [(g_lf g, g_w_half g); (g_lf g, - g_w_half g); (- g_lr g, g_w_half g); (- g_lr g, - g_w_half g)]
  else [(g_lf g, 0); (- g_lr g, 0)].
(** n_wheels, vehicle_structures.py:207-209. *)
Definition n_wheels (g : vehicle_geometry) : nat := length (wheels_position g).
(** lights_position, vehicle_structures.py:196-205. *)
Definition lights_position (g : vehicle_geometry) : result (list (string * vec)) :=
  bind (wheel_shape g) (fun s => let halfwidth := fst s in
  bind (bumpers_length g) (fun b => let frontbumper := fst b in let backbumper := snd b in
  Ok [("back_left", (- g_lr g - backbumper, g_w_half g - halfwidth));
      ("back_right", (- g_lr g - backbumper, - g_w_half g + halfwidth));
      ("front_left", (g_lf g + frontbumper, g_w_half g - halfwidth));
      ("front_right", (g_lf g + frontbumper, - g_w_half g + halfwidth))])).
(** transform @ points.
    Used for [get_rotated_wheels_outlines], vehicle_structures.py:211-226; [diff_drive_wheels], diff_drive_structures.py:103-112. *)
Definition transform (q : mat) (l : list vec) : list vec := map (SE2_apply_T2 q) l.
(** get_rotated_wheels_outlines, vehicle_structures.py:211-226. *)
Definition get_rotated_wheels_outlines (g : vehicle_geometry) (delta : R) : result (list (list vec)) :=
  if (n_wheels g =? 2)%nat || (n_wheels g =? 4)%nat then
    bind (wheel_outline g) (fun o =>
    Ok (map (fun ip => let '(i, p) := ip in
          transform (SE2_from_translation_angle p (if (2 * i <? n_wheels g)%nat then delta else 0)) o)
        (combine (List.seq 0 (n_wheels g)) (wheels_position g))))
  else Err PyAssertionError.

Section Mesh.
(** Polygon.centroid of shapely, on the vertices of a ring (first vertex repeated). *)
Variable centroid : list vec -> vec.
(** is_valid of the polygon with vertices c, a, b, c.
    Used for [mesh_of], vehicle.py:218-231. *)
Definition valid_triangle (t : vec * vec * vec) : bool :=
  let '(c, a, b) := t in if Req_EM_T (vcross (vsub a c) (vsub b c)) 0 then false else true.
(** The mesh of four triangles of a ring, vehicle.py:218-231 and diff_drive.py:177-190;
    a triangle is given by its corners. *)
Definition mesh_of (footprint : list vec) : result (list (string * (vec * vec * vec))) :=
  let vertices := removelast footprint in
  let cxy := centroid footprint in
  bind (item vertices 0) (fun v0 => bind (item vertices 1) (fun v1 => bind (item vertices 2) (fun v2 => bind (item vertices 3) (fun v3 =>
  let m := [("right", (cxy, v0, v3)); ("left", (cxy, v1, v2)); ("back", (cxy, v0, v1)); ("front", (cxy, v2, v3))] in
  if forallb (fun e => valid_triangle (snd e)) m then Ok m else Err PyAssertionError)))).
(** get_footprint and get_mesh of a vehicle with the pose (p, psi), vehicle.py:211-231. *)
Definition vehicle_footprint (g : vehicle_geometry) (p : vec) (psi : R) : result (list vec) :=
  bind (outline g) (fun o => Ok (apply_SE2_to_shapely_geo o (SE2_from_translation_angle p psi))).
Definition vehicle_mesh (g : vehicle_geometry) (p : vec) (psi : R) : result (list (string * (vec * vec * vec))) :=
  bind (vehicle_footprint g p psi) mesh_of.

(** DiffDriveGeometry, diff_drive_structures.py:20-112: the outline is Point(0, 0).buffer(radius),
    a regular polygon with [4 * quad] vertices listed clockwise (quad = 16 by default). *)
Definition circle (quad : nat) (r : R) : list vec :=
  map (fun k => (r * cos (INR k * (PI / (2 * INR quad))), - (r * sin (INR k * (PI / (2 * INR quad)))))) (List.seq 0 (4 * quad + 1)).
(** get_footprint and get_mesh, diff_drive.py:171-190. *)
Definition diff_drive_footprint (quad : nat) (r : R) (p : vec) (psi : R) : list vec := apply_SE2_to_shapely_geo (circle quad r) (SE2_from_translation_angle p psi).
Definition diff_drive_mesh (quad : nat) (r : R) (p : vec) (psi : R) : result (list (string * (vec * vec * vec))) := mesh_of (diff_drive_footprint quad r p psi).
(** wheels_outlines, diff_drive_structures.py:103-112. *)
Definition diff_drive_wheels (wb wheelradius : R) : list (list vec) :=
  map (fun p => transform (SE2_from_translation_angle p 0) (wheel_ring (wheelradius / 3) wheelradius)) [(0, - wb / 2); (0, wb / 2)].
End Mesh.
