(* Generated from tools/Body.src by tools/gen_props.py. *)
(** Properties of the bodies of vehicles and robots. *)
From Coq Require Import String Reals Lra Psatz List Bool ZArith Lia Arith.
From Verif Require Import Base R2 GeoModel GeoSpec GeoProofs LaneModel BodyModel BodySpec BodyProofs.
Import ListNotations.
Open Scope R_scope.
From Verif Require Import BodyMain.

(** ** C84 *)

(** The outline of a vehicle is a closed box around both axles, as long as the vehicle
    says, and contains the lights, which are on its front and back sides. *)
Theorem C84_outline : forall g, In (g_type g) vehicle_types -> 0 <= g_w_half g -> 0 <= g_lf g -> 0 <= g_lr g ->
  exists x0 x1 y, outline g = Ok (box_ring x0 x1 y) /\ vlength g = Ok (x1 - x0) /\ x0 < - g_lr g /\ g_lf g <= x1 /\ g_w_half g < y /\
    exists bl br fl fr, lights_position g = Ok [("back_left", (x0, bl)); ("back_right", (x0, br)); ("front_left", (x1, fl)); ("front_right", (x1, fr))]%string /\
      forall l, In l [bl; br; fl; fr] -> - y <= l <= y.
Proof. exact C84_outline_pf. Qed.
Print Assumptions C84_outline.

(** The left lights are to the left of the right ones, if the axle is longer than a tyre
    is wide. *)
Theorem C84_lights : forall g l t r, lights_position g = Ok l -> wheel_shape g = Ok (t, r) -> t < g_w_half g ->
  (forall bl br, In ("back_left"%string, bl) l -> In ("back_right"%string, br) l -> snd br < 0 < snd bl) /\ (forall fl fr, In ("front_left"%string, fl) l -> In ("front_right"%string, fr) l -> snd fr < 0 < snd fl).
Proof. exact C84_lights_pf. Qed.
Print Assumptions C84_lights.

(** Another type of vehicle has no outline, wheels, lights or length. *)
Theorem C84_unknown_type : forall g delta, ~ In (g_type g) vehicle_types ->
  outline g = Err ZValueError /\ vlength g = Err ZValueError /\ lights_position g = Err ZValueError /\ wheel_outline g = Err ZValueError /\ get_rotated_wheels_outlines g delta = Err ZValueError /\ forall p psi, vehicle_footprint g p psi = Err ZValueError.
Proof. exact C84_unknown_type_pf. Qed.
Print Assumptions C84_unknown_type.

(** The outline is wider than the width of the vehicle. *)
Theorem C84_width_refuted : forall g, In (g_type g) vehicle_types -> exists x0 x1 y, outline g = Ok (box_ring x0 x1 y) /\ width g < y - (- y).
Proof. exact C84_width_refuted_pf. Qed.
Print Assumptions C84_width_refuted.

(** With straight wheels every wheel is inside the outline, if the front axle is far
    enough from the centre. *)
Theorem C84_wheels_partial : forall g t r, In (g_type g) vehicle_types -> 0 <= g_w_half g -> wheel_shape g = Ok (t, r) ->
  (In (g_type g) ["car"; "truck"]%string -> 2 * r <= g_lf g) -> 0 <= g_lf g -> 0 <= g_lr g ->
  exists x0 x1 y ws, outline g = Ok (box_ring x0 x1 y) /\ get_rotated_wheels_outlines g 0 = Ok ws /\
    length ws = (if existsb (String.eqb (g_type g)) ["car"; "truck"]%string then 4 else 2)%nat /\ forall wheel v, In wheel ws -> In v wheel -> in_box x0 x1 (- y) y v.
Proof. exact C84_wheels_partial_pf. Qed.
Print Assumptions C84_wheels_partial.

(** Steered wheels of a car or truck stick out. *)
Theorem C84_steered_wheels_refuted : forall g delta, In (g_type g) ["car"; "truck"]%string -> 0 < delta <= PI / 2 ->
  exists x0 x1 y ws wheel v, outline g = Ok (box_ring x0 x1 y) /\ get_rotated_wheels_outlines g delta = Ok ws /\ In wheel ws /\ In v wheel /\ y < snd v.
Proof. exact C84_steered_wheels_refuted_pf. Qed.
Print Assumptions C84_steered_wheels_refuted.

(** So do the front wheels of a short car, and the wheels of the default robot. *)
Theorem C84_short_front_refuted : forall g t r, In (g_type g) ["car"; "truck"]%string -> wheel_shape g = Ok (t, r) -> g_lf g < 2 * r ->
  exists x0 x1 y ws wheel v, outline g = Ok (box_ring x0 x1 y) /\ get_rotated_wheels_outlines g 0 = Ok ws /\ In wheel ws /\ In v wheel /\ x1 < fst v.
Proof. exact C84_short_front_refuted_pf. Qed.
Print Assumptions C84_short_front_refuted.

Theorem C84_robot_wheels_refuted : exists wheel v, In wheel (diff_drive_wheels 1 (2 / 10)) /\ In v wheel /\ 6 / 10 < vdist (0, 0) v.
Proof. exact C84_robot_wheels_refuted_pf. Qed.
Print Assumptions C84_robot_wheels_refuted.

(** The wheels: of a car or truck, front left, front right, back left and back right; of a
    motorcycle or bicycle, front and back; the track of the robot is the distance of its
    wheels. *)
Theorem C84_wheel_places : forall g delta, In (g_type g) vehicle_types -> exists t r,
  let ring := box_wheel t r in
  get_rotated_wheels_outlines g delta = Ok (if existsb (String.eqb (g_type g)) ["car"; "truck"]%string
    then [map (in_world (g_lf g, g_w_half g) delta) ring; map (in_world (g_lf g, - g_w_half g) delta) ring; map (in_world (- g_lr g, g_w_half g) 0) ring; map (in_world (- g_lr g, - g_w_half g) 0) ring]
    else [map (in_world (g_lf g, 0) delta) ring; map (in_world (- g_lr g, 0) 0) ring]) /\ 0 < t < r.
Proof. exact C84_wheel_places_pf. Qed.
Print Assumptions C84_wheel_places.

Theorem C84_robot_wheels : forall wb r, diff_drive_wheels wb r = [map (in_world (0, - (wb / 2)) 0) (box_wheel (r / 3) r); map (in_world (0, wb / 2) 0) (box_wheel (r / 3) r)].
Proof. exact C84_robot_wheels_pf. Qed.
Print Assumptions C84_robot_wheels.

(** Steering turns the front wheels in place and leaves the others. *)
Theorem C84_steering : forall g delta ws o, get_rotated_wheels_outlines g delta = Ok ws -> wheel_outline g = Ok o ->
  length ws = length (wheels_position g) /\ forall i p wheel, nth_error (wheels_position g) i = Some p -> nth_error ws i = Some wheel ->
    (fst p = g_lf g -> 0 <= g_lf g -> 0 < g_lr g -> wheel = map (in_world p delta) o) /\ (fst p = - g_lr g -> 0 <= g_lf g -> 0 < g_lr g -> wheel = map (in_world p 0) o).
Proof. exact C84_steering_pf. Qed.
Print Assumptions C84_steering.

(** The footprint is the outline, turned and moved with the vehicle: distances do not
    change. *)
Theorem C84_footprint : forall g p psi o f, outline g = Ok o -> vehicle_footprint g p psi = Ok f ->
  f = map (in_world p psi) o /\ forall a b, vdist (in_world p psi a) (in_world p psi b) = vdist a b.
Proof. exact C84_footprint_pf. Qed.
Print Assumptions C84_footprint.

(** The four parts of the mesh of a vehicle: at relative position [a] between back (-1) and
    front (1) and [b] between right (-1) and left (1), a point belongs to the part whose
    side is nearest in these terms. *)
Theorem C84_vehicle_mesh : forall centroid g p psi, right_centroid centroid -> In (g_type g) vehicle_types -> 0 <= g_w_half g -> 0 <= g_lf g -> 0 <= g_lr g ->
  exists x0 x1 y right left back front, outline g = Ok (box_ring x0 x1 y) /\ x0 < x1 /\ 0 < y /\
    vehicle_mesh centroid g p psi = Ok [("right", right); ("left", left); ("back", back); ("front", front)]%string /\
    forall a b, let v := in_world p psi ((x0 + x1) / 2 + a * ((x1 - x0) / 2), b * y) in
      (in_triangle front v <-> Rabs b <= a <= 1) /\ (in_triangle back v <-> Rabs b <= - a <= 1) /\
      (in_triangle left v <-> Rabs a <= b <= 1) /\ (in_triangle right v <-> Rabs a <= - b <= 1).
Proof. exact C84_vehicle_mesh_pf. Qed.
Print Assumptions C84_vehicle_mesh.

(** So the parts cover the vehicle, and nothing else. *)
Theorem C84_mesh_covers : forall centroid g p psi m, right_centroid centroid -> In (g_type g) vehicle_types -> 0 <= g_w_half g -> 0 <= g_lf g -> 0 <= g_lr g -> vehicle_mesh centroid g p psi = Ok m ->
  exists x0 x1 y, outline g = Ok (box_ring x0 x1 y) /\ forall v, in_box x0 x1 (- y) y v <-> exists name t, In (name, t) m /\ in_triangle t (in_world p psi v).
Proof. exact C84_mesh_covers_pf. Qed.
Print Assumptions C84_mesh_covers.

(** The mesh of a differential drive robot only covers a quarter of it: it takes the first
    four vertices of a polygon with 64 vertices for the corners of a box. *)
Theorem C84_robot_mesh_refuted : forall centroid quad r p psi, right_centroid centroid -> (3 <= quad)%nat -> 0 < r ->
  exists m, diff_drive_mesh centroid quad r p psi = Ok m /\
    (forall name t v, In (name, t) m -> in_triangle t (in_world p psi v) -> 0 <= fst v /\ snd v <= 0) /\
    (forall v, In v (diff_drive_footprint quad r p psi) -> vdist v p = r) /\ In (in_world p psi (- r, 0)) (diff_drive_footprint quad r p psi).
Proof. exact C84_robot_mesh_refuted_pf. Qed.
Print Assumptions C84_robot_mesh_refuted.

Example C84_ex : right_centroid mean_centroid /\ In (g_type default_car) vehicle_types /\ outline default_car = Ok (box_ring (- (12 / 10) - 3 / 10 * 2) (12 / 10 + 12 / 10 / 2) (8 / 10 + 1 / 10)) /\
  wheel_shape default_car = Ok (1 / 10, 3 / 10) /\ 2 * (3 / 10) <= g_lf default_car /\ 1 / 10 < g_w_half default_car /\ ~ In "spacecraft"%string vehicle_types /\ (3 <= 16)%nat.
Proof.
  split; [exact mean_right|]. split; [cbn; auto|]. split; [|split; [reflexivity|split; [cbn; lra|split; [cbn; lra|split; [|lia]]]]].
  - unfold outline, bumpers_length, wheel_shape, box_ring, default_car. cbn [g_type g_lf g_lr g_w_half String.eqb Ascii.eqb Bool.eqb bind fst snd four existsb orb FourWheelsTypes]. replace (- (8 / 10) - 1 / 10) with (- (8 / 10 + 1 / 10)) by lra. reflexivity.
  - cbn. intros [X|[X|[X|[X|[]]]]]; discriminate.
Qed.

Example C84_short_ex : In "car"%string ["car"; "truck"]%string /\ wheel_shape (mkVG "car" 1 (1 / 2) 1) = Ok (1 / 10, 3 / 10) /\ g_lf (mkVG "car" 1 (1 / 2) 1) < 2 * (3 / 10).
Proof. split; [left; reflexivity|]. split; [reflexivity|cbn; lra]. Qed.
