(* Generated from tools/Draw.src by tools/gen_props.py. *)
(** Properties of the drawings of players, shapes, arenas and logs. *)
From Coq Require Import String Reals Lra Psatz List Bool ZArith Lia Arith.
From Verif Require Import Base R2 GeoModel GeoSpec GeoProofs LaneModel LaneProofs BodyModel BodySpec BodyProofs DynModel LightModel GoalModel DrawModel DrawSpec DictLemmas DrawProofs.
Import ListNotations.
Import LaneModel.
Open Scope R_scope.
From Verif Require Import DrawMain.

(** ** C95 *)

(** After any number of frames a vehicle is drawn as its footprint at the last state, with
    its name at its position, its wheels where the vehicle has them with the steering angle,
    and its lights in the colours of the last frame. *)
Theorem C95_vehicle : forall union quad models name col g wheels lights f0 fs p psi delta c lc,
  agetE String.eqb models name = Ok (BVehicle g, col) -> In (g_type g) vehicle_types ->
  (forall f, In f (f0 :: fs) -> exists p psi delta c lc, f = mkFrame (SVehicle p psi delta) c (Some lc)) ->
  last fs f0 = mkFrame (SVehicle p psi delta) c (Some lc) ->
  exists body ws bl br fl fr, get_footprint union quad (BVehicle g) p psi = Ok body /\ get_rotated_wheels_outlines g delta = Ok ws /\
    lights_position g = Ok [("back_left", bl); ("back_right", br); ("front_left", fl); ("front_right", fr)]%string /\
    draw_animation union quad models name wheels lights f0 fs =
      Ok (Fill col body :: Label name p :: (if wheels then map (fun w => Fill "k" (map (in_world p psi) w)) ws else []),
          if lights then let light v c := mkCircle (in_world p psi v) (4 / 100 * width g) c in
            Some [light bl (back_left lc); light br (back_right lc); light fl (front_left lc); light fr (front_right lc)] else None).
Proof. exact C95_vehicle_pf. Qed.
Print Assumptions C95_vehicle.

Example C95_vehicle_ex : let g := BodyModel.mkVG "car"%string 1 2 2 in let lc := mkLC white white red red in
  In (g_type g) vehicle_types /\ exists d, draw_animation (@concat vec) 16 [("P1"%string, (BVehicle g, "b"%string))] "P1" true true (mkFrame (SVehicle (0, 0) 0 0) COther (Some lc)) [mkFrame (SVehicle (3, 0) 0 1) COther (Some lc)] = Ok d /\ length (fst d) = 6%nat.
Proof.
  intros g lc. split; [left; reflexivity|]. destruct (C95_vehicle (@concat vec) 16 [("P1"%string, (BVehicle g, "b"%string))] "P1" "b" g true true (mkFrame (SVehicle (0, 0) 0 0) COther (Some lc)) [mkFrame (SVehicle (3, 0) 0 1) COther (Some lc)] (3, 0) 0 1 COther lc) as (b & ws & bl & br & fl & fr & _ & W & _ & D).
  - reflexivity.
  - left. reflexivity.
  - intros f [<-|[<-|[]]]; repeat eexists.
  - reflexivity.
  - eexists. split; [exact D|]. vm_compute in W. injection W as <-. reflexivity.
Qed.

(** The same for pedestrians. *)
Theorem C95_pedestrian : forall union quad models name col wheels lights f0 fs p psi c lc,
  agetE String.eqb models name = Ok (BPedestrian, col) -> (forall f, In f (f0 :: fs) -> exists p psi, f_state f = SPedestrian p psi) -> last fs f0 = mkFrame (SPedestrian p psi) c lc ->
  exists body, get_footprint union quad BPedestrian p psi = Ok body /\ draw_animation union quad models name wheels lights f0 fs = Ok ([Fill col body; Label name p], Some []).
Proof. exact C95_pedestrian_pf. Qed.
Print Assumptions C95_pedestrian.

(** The same for obstacles, which have no name. *)
Theorem C95_obstacle : forall union quad models name col shape wheels lights f0 fs p psi c lc,
  agetE String.eqb models name = Ok (BObstacle shape, col) -> (forall f, In f (f0 :: fs) -> exists p psi, f_state f = SObstacle p psi) -> last fs f0 = mkFrame (SObstacle p psi) c lc ->
  exists body, get_footprint union quad (BObstacle shape) p psi = Ok body /\ draw_animation union quad models name wheels lights f0 fs = Ok ([Fill col body], Some []).
Proof. exact C95_obstacle_pf. Qed.
Print Assumptions C95_obstacle.

(** The same for differential drive robots, with their wheels. *)
Theorem C95_diff_drive : forall union quad models name col wb wr r wheels lights f0 fs p psi c lc,
  agetE String.eqb models name = Ok (BDiffDrive wb wr r, col) -> (forall f, In f (f0 :: fs) -> exists p psi, f_state f = SDiffDrive p psi) -> last fs f0 = mkFrame (SDiffDrive p psi) c lc ->
  exists body, get_footprint union quad (BDiffDrive wb wr r) p psi = Ok body /\
    draw_animation union quad models name wheels lights f0 fs = Ok (Fill col body :: Label name p :: (if wheels then map (fun w => Fill "k" (map (in_world p psi) w)) (diff_drive_wheels wb wr) else []), Some []).
Proof. exact C95_diff_drive_pf. Qed.
Print Assumptions C95_diff_drive.

(** The same for spacecraft, with their thrusters at the back corners. *)
Theorem C95_spacecraft : forall union quad models name col g wheels lights f0 fs p psi c lc,
  agetE String.eqb models name = Ok (BSpacecraft g, col) -> spacecraft_outline union quad g <> [] -> (forall f, In f (f0 :: fs) -> exists p psi, f_state f = SSpacecraft p psi) -> last fs f0 = mkFrame (SSpacecraft p psi) c lc ->
  exists body, get_footprint union quad (BSpacecraft g) p psi = Ok body /\
    let thruster y := Fill "k" (part_in_world p psi (- sg_lr g, y) 0 (wheel_ring (15 / 100) (1 / 2))) in
    draw_animation union quad models name wheels lights f0 fs = Ok ([Fill col body; Label name p; thruster (- sg_w_half g); thruster (sg_w_half g)], Some []).
Proof. exact C95_spacecraft_pf. Qed.
Print Assumptions C95_spacecraft.

(** The same for rockets: both nozzles at the height of the thrusters, turned by the angle
    of the nozzles; with fuel left, flames as long as the commands of the last frame ask for,
    without fuel single points at the origin of the world. *)
Theorem C95_rocket : forall union quad models name col g rp wheels lights f0 fs p psi phi m Fl Fr lc,
  agetE String.eqb models name = Ok (BRocket g rp, col) -> rocket_outline union g <> [] -> (forall f, In f (f0 :: fs) -> (exists p psi phi m, f_state f = SRocket p psi phi m) /\ exists Fl Fr, f_command f = CRocket Fl Fr) ->
  last fs f0 = mkFrame (SRocket p psi phi m) (CRocket Fl Fr) lc ->
  exists body, get_footprint union quad (BRocket g rp) p psi = Ok body /\
    let at_left := part_in_world p psi (rg_l_m g, - rg_w_half g / 10) (phi + PI / 2) in
    let at_right := part_in_world p psi (rg_l_m g, rg_w_half g / 10) (- phi - PI / 2) in
    let nozzle := nozzle_ring (rg_w_t_half g) (rg_l_t_half g) in
    let flame F := flame_ring (rg_w_t_half g) (rg_l_t_half g) (F / rg_F_max g / 2) in
    let burns := if Rlt_dec (rp_mv rp) m then [at_left (flame Fl); at_right (flame Fr)] else [[(0, 0)]; [(0, 0)]] in
    draw_animation union quad models name wheels lights f0 fs = Ok ([Fill col body; Label name p; Fill "k" (at_left nozzle); Fill "k" (at_right nozzle)] ++ map (Fill "r") burns, Some []).
Proof. exact C95_rocket_pf. Qed.
Print Assumptions C95_rocket.

(** The same for spaceships, with one nozzle at the back. *)
Theorem C95_spaceship : forall union quad models name col g sp wheels lights f0 fs p psi delta m F lc,
  agetE String.eqb models name = Ok (BSpaceship g sp, col) -> spaceship_outline union g <> [] -> (forall f, In f (f0 :: fs) -> (exists p psi delta m, f_state f = SSpaceship p psi delta m) /\ exists F, f_command f = CSpaceship F) ->
  last fs f0 = mkFrame (SSpaceship p psi delta m) (CSpaceship F) lc ->
  exists body, get_footprint union quad (BSpaceship g sp) p psi = Ok body /\
    let at_back := part_in_world p psi (- hg_l_r g, 0) (delta + PI) in
    let burns := if Rlt_dec (rp_mv sp) m then at_back (flame_ring (hg_w_t_half g) (hg_l_t_half g) (F / hg_F_max g / 2)) else [(0, 0)] in
    draw_animation union quad models name wheels lights f0 fs = Ok ([Fill col body; Label name p; Fill "k" (at_back (nozzle_ring (hg_w_t_half g) (hg_l_t_half g))); Fill "r" burns], Some []).
Proof. exact C95_spaceship_pf. Qed.
Print Assumptions C95_spaceship.

Example C95_rocket_ex : let g := rocket_default0 in
  rocket_outline (@concat vec) g <> [] /\ exists d, draw_animation (@concat vec) 16 [("R"%string, (BRocket g rp_default, "b"%string))] "R" true true (mkFrame (SRocket (0, 0) 0 0 3) (CRocket 1 0) None) [mkFrame (SRocket (0, 1) 1 0 (5 / 2)) (CRocket 1 2) None; mkFrame (SRocket (0, 2) 1 0 2) (CRocket 1 2) None] = Ok d /\
    map (fun a => match a with Fill c xy => xy | Label _ p => [p] end) (skipn 4 (fst d)) = [[(0, 0)]; [(0, 0)]].
Proof.
  intro g. split; [discriminate|]. destruct (C95_rocket (@concat vec) 16 [("R"%string, (BRocket g rp_default, "b"%string))] "R" "b" g rp_default true true (mkFrame (SRocket (0, 0) 0 0 3) (CRocket 1 0) None) [mkFrame (SRocket (0, 1) 1 0 (5 / 2)) (CRocket 1 2) None; mkFrame (SRocket (0, 2) 1 0 2) (CRocket 1 2) None] (0, 2) 1 0 2 1 2 None) as (b & _ & D).
  - reflexivity.
  - discriminate.
  - intros f [<-|[<-|[<-|[]]]]; repeat eexists.
  - reflexivity.
  - cbv zeta in D. eexists. split; [exact D|]. destruct (Rlt_dec (rp_mv rp_default) 2) as [X|X]; [cbn in X; lra|]. reflexivity.
Qed.

(** Players without a model and other states are refused. *)
Theorem C95_refused : forall union quad models name f h cs wheels lights,
  (agetE String.eqb models name = Err PyKeyError -> draw_frame union quad models name wheels lights h cs f = Err PyKeyError) /\
  (forall bc, agetE String.eqb models name = Ok bc -> f_state f = SOther -> draw_frame union quad models name wheels lights h cs f = Err ZValueError).
Proof. exact C95_refused_pf. Qed.
Print Assumptions C95_refused.

(** Wheels and lights that are asked for only after the first drawing are not drawn: no
    wheels appear, and the lights are an error. *)
Theorem C95_later_refuted : forall union quad models name col g f f' h cs,
  agetE String.eqb models name = Ok (BVehicle g, col) -> In (g_type g) vehicle_types ->
  (exists p psi delta c lc, f = mkFrame (SVehicle p psi delta) c (Some lc)) -> (exists p psi delta c lc, f' = mkFrame (SVehicle p psi delta) c (Some lc)) ->
  draw_frame union quad models name false false None None f = Ok (h, cs) ->
  (exists h', draw_frame union quad models name true false (Some h) cs f' = Ok (h', cs) /\ length h' = 2%nat) /\
  draw_frame union quad models name true true (Some h) cs f' = Err PyTypeError.
Proof. exact C95_later_refuted_pf. Qed.
Print Assumptions C95_later_refuted.

(** ** C96 *)

(** The body of a rocket made by default extends from its back to the tip of its nose, over
    its length, and its width is that of the body; the thrusters are not a part of it. *)
Theorem C96_rocket : forall union w l_c l_f l_m l_r l l_t w_t F_max, right_union union -> 0 <= w -> 0 <= l_c -> 0 <= l_f -> 0 <= l_m -> 0 <= l_r ->
  let g := rocket_default w l_c l_f l_m l_r l l_t w_t F_max in
  exists x0 x1 y0 y1, bounding_box (rocket_outline union g) x0 x1 y0 y1 /\ x0 = - l_r /\ x1 = l_f + l_m + l_c /\ x1 - x0 = rg_l g /\ y0 = - w /\ y1 - y0 = rocket_width g.
Proof. exact C96_rocket_pf. Qed.
Print Assumptions C96_rocket.

(** A length that is asked for is not taken. *)
Theorem C96_requested_length_refuted : exists w l_c l_f l_m l_r l l_t w_t F_max, 0 < l /\ rg_l (rocket_default w l_c l_f l_m l_r l l_t w_t F_max) <> l.
Proof. exact C96_requested_length_refuted_pf. Qed.
Print Assumptions C96_requested_length_refuted.

(** The same for a spaceship. *)
Theorem C96_spaceship : forall union g, right_union union -> 0 <= hg_w_half g -> 0 <= hg_l_c g -> 0 <= hg_l_f g -> 0 <= hg_l_r g ->
  exists x0 x1 y0 y1, bounding_box (spaceship_outline union g) x0 x1 y0 y1 /\ x0 = - hg_l_r g /\ x1 = hg_l_f g + hg_l_c g /\ x1 - x0 = spaceship_l g /\ y0 = - hg_w_half g /\ y1 - y0 = spaceship_width g.
Proof. exact C96_spaceship_pf. Qed.
Print Assumptions C96_spaceship.

(** A spacecraft extends from its rear length to its front length (or to the millimetre of
    the rectangle), over its width. *)
Theorem C96_spacecraft : forall union quad w lf lr g, right_union union -> (0 < quad)%nat -> 0 < w -> 0 <= lf -> spacecraft_geometry_init w lf lr = Ok g ->
  exists x0 x1 y0 y1, bounding_box (spacecraft_outline union quad g) x0 x1 y0 y1 /\ x0 = - lr /\ x1 = Rmax lf (1 / 1000) /\ y0 = - w /\ y1 - y0 = spacecraft_width g.
Proof. exact C96_spacecraft_pf. Qed.
Print Assumptions C96_spacecraft.

(** A pedestrian is an ellipse of one metre by one and a half. *)
Theorem C96_pedestrian : forall quad, (0 < quad)%nat -> bounding_box (pedestrian_outline quad) (- (1 / 2)) (1 / 2) (- (3 / 4)) (3 / 4) /\
  forall v, In v (pedestrian_outline quad) -> (fst v / (1 / 2)) ^ 2 + (snd v / (3 / 4)) ^ 2 = 1.
Proof. exact C96_pedestrian_pf. Qed.
Print Assumptions C96_pedestrian.

(** A right union of touching polygons exists (the points of both; only the hull matters),
    and the default geometries meet the conditions. *)
Example C96_ex : right_union (@concat vec) /\ (exists g, spacecraft_geometry_init 1 2 3 = Ok g) /\ 0 <= hg_w_half spaceship_default0 /\ rg_l rocket_default0 = 9 / 10.
Proof.
  split; [|split; [|split]].
  - intros r1 r2 _ a b c. cbn [concat]. rewrite app_nil_r. reflexivity.
  - unfold spacecraft_geometry_init. rewrite (proj2 (ltb_iff 2 3)) by lra. eexists. reflexivity.
  - cbn. lra.
  - cbn. lra.
Qed.

(** The thrusters of every spacecraft stick out of its footprint to both sides. *)
Theorem C96_thrusters_refuted : forall union quad w lf lr g, right_union union -> (0 < quad)%nat -> 0 < w -> 0 <= lf -> spacecraft_geometry_init w lf lr = Ok g ->
  exists right left, spacecraft_thrusters g = Ok [right; left] /\ (exists v, In v right /\ forall u, In u (spacecraft_outline union quad g) -> snd v < snd u) /\ (exists v, In v left /\ forall u, In u (spacecraft_outline union quad g) -> snd u < snd v).
Proof. exact C96_thrusters_refuted_pf. Qed.
Print Assumptions C96_thrusters_refuted.

(** A rocket is pushed by the applied thrusts against the directions in which its nozzles
    are drawn: the force on it, mass times acceleration, is the sum of these. *)
Theorem C96_rocket_thrust : forall g rp Iz x u, 0 < r_m x -> 0 < rg_l_t_half g ->
  let d := rocket_dynamics rp Iz (rg_l_m g) x u in
  let nozzle n a := part_in_world (r_x x, r_y x) (r_psi x) n a (nozzle_ring (rg_w_t_half g) (rg_l_t_half g)) in
  let left := nozzle (rg_l_m g, - rg_w_half g / 10) (r_ang x + PI / 2) in
  let right := nozzle (rg_l_m g, rg_w_half g / 10) (- r_ang x - PI / 2) in
  vnorm (exhaust left) = rg_l_t_half g /\ vnorm (exhaust right) = rg_l_t_half g /\
  let '(Fl, Fr) := rocket_thrust rp x u in
  vscale (r_m x) (r_vx d, r_vy d) = vadd (vscale (- Fl / rg_l_t_half g) (exhaust left)) (vscale (- Fr / rg_l_t_half g) (exhaust right)).
Proof. exact C96_rocket_thrust_pf. Qed.
Print Assumptions C96_rocket_thrust.

(** The turning of a rocket is not that of these forces at the drawn nozzles, which are
    beside its axis. *)
Theorem C96_rocket_torque_refuted : exists g rp Iz x u, 0 < r_m x /\ 0 < Iz /\ 0 < rg_l_t_half g /\
  let d := rocket_dynamics rp Iz (rg_l_m g) x u in
  let nozzle n a := part_in_world (r_x x, r_y x) (r_psi x) n a (nozzle_ring (rg_w_t_half g) (rg_l_t_half g)) in
  let left := nozzle (rg_l_m g, - rg_w_half g / 10) (r_ang x + PI / 2) in
  let right := nozzle (rg_l_m g, rg_w_half g / 10) (- r_ang x - PI / 2) in
  let '(Fl, Fr) := rocket_thrust rp x u in
  Iz * r_dpsi d <> vcross (vsub (nozzle_base left) (r_x x, r_y x)) (vscale (- Fl / rg_l_t_half g) (exhaust left)) + vcross (vsub (nozzle_base right) (r_x x, r_y x)) (vscale (- Fr / rg_l_t_half g) (exhaust right)).
Proof. exact C96_rocket_torque_refuted_pf. Qed.
Print Assumptions C96_rocket_torque_refuted.

(** A spaceship is pushed and turned by the applied thrust at its drawn nozzle, against the
    direction in which it is drawn (the velocity of its state turns with the ship). *)
Theorem C96_spaceship_thrust : forall g sp Iz x u, 0 < r_m x -> Iz <> 0 -> 0 < hg_l_t_half g ->
  let d := spaceship_dynamics sp Iz (hg_l_r g) x u in
  let nozzle := part_in_world (r_x x, r_y x) (r_psi x) (- hg_l_r g, 0) (r_ang x + PI) (nozzle_ring (hg_w_t_half g) (hg_l_t_half g)) in
  let force := vscale (- spaceship_thrust sp x u / hg_l_t_half g) (exhaust nozzle) in
  let inertial := vsub (in_world (0, 0) (r_psi x) (r_vx d, r_vy d)) (in_world (0, 0) (r_psi x) (r_dpsi x * r_vy x, - r_dpsi x * r_vx x)) in
  vscale (r_m x) inertial = force /\ Iz * r_dpsi d = vcross (vsub (nozzle_base nozzle) (r_x x, r_y x)) force.
Proof. exact C96_spaceship_thrust_pf. Qed.
Print Assumptions C96_spaceship_thrust.

(** Flames point along their nozzles, and as long as the commands are within the limits and
    there is fuel they are as long as the applied thrusts, by the scale of the drawing. *)
Theorem C96_flames : forall g rp x u, rp_mv rp < r_m x -> rp_Flo rp <= rc_l u <= rp_Fhi rp -> rp_Flo rp <= rc_r u <= rp_Fhi rp -> rg_l_t_half g <> 0 ->
  let at_ n a := part_in_world (r_x x, r_y x) (r_psi x) n a in
  let left := at_ (rg_l_m g, - rg_w_half g / 10) (r_ang x + PI / 2) in
  let right := at_ (rg_l_m g, rg_w_half g / 10) (- r_ang x - PI / 2) in
  let nozzle := nozzle_ring (rg_w_t_half g) (rg_l_t_half g) in
  let flame F := flame_ring (rg_w_t_half g) (rg_l_t_half g) (F / rg_F_max g / 2) in
  let '(Fl, Fr) := rocket_thrust rp x u in
  flame_vector (left (flame (rc_l u))) = vscale (Fl / rg_F_max g / 2 / rg_l_t_half g) (exhaust (left nozzle)) /\
  flame_vector (right (flame (rc_r u))) = vscale (Fr / rg_F_max g / 2 / rg_l_t_half g) (exhaust (right nozzle)).
Proof. exact C96_flames_pf. Qed.
Print Assumptions C96_flames.

(** Beyond the limits the flame is longer than that of the thrust that is applied. *)
Theorem C96_flames_refuted : exists g rp x u, rp_mv rp < r_m x /\ 0 < rg_F_max g /\
  let left := part_in_world (r_x x, r_y x) (r_psi x) (rg_l_m g, - rg_w_half g / 10) (r_ang x + PI / 2) in
  let flame F := left (flame_ring (rg_w_t_half g) (rg_l_t_half g) (F / rg_F_max g / 2)) in
  vnorm (flame_vector (flame (fst (rocket_thrust rp x u)))) < vnorm (flame_vector (flame (rc_l u))).
Proof. exact C96_flames_refuted_pf. Qed.
Print Assumptions C96_flames_refuted.

(** ** C97 *)

(** A polygon drawn with no zorder, or one of at most 1: a pixel in a hole shows the
    background, another one inside the exterior the colour, any other one nothing. *)
Theorem C97_polygon : forall inside e i col z p, e <> [] -> (forall x, z = Some x -> x <= 1) -> exists ds, add_shape (Polygon e i) (mkStyle col z) = Ok ds /\
  paint inside ds p = if existsb (fun h => inside (removelast h) p) i then Some None else if inside (removelast e) p then Some (Some col) else None.
Proof. exact C97_polygon_pf. Qed.
Print Assumptions C97_polygon.

(** With a greater zorder, as for the obstacles and goals of an arena, the holes are
    covered. *)
Theorem C97_holes_refuted : forall inside e i col z p, e <> [] -> 1 < z -> inside (removelast e) p = true -> exists ds, add_shape (Polygon e i) (mkStyle col (Some z)) = Ok ds /\ paint inside ds p = Some (Some col).
Proof. exact C97_holes_refuted_pf. Qed.
Print Assumptions C97_holes_refuted.

(** Only the first part of several polygons is in the colour: a pixel outside of it never
    is, and in the other parts the background is painted. *)
Theorem C97_parts_refuted : forall inside e i parts col z p, inside (removelast e) p = false -> exists ds, add_shape (MultiPolygon ((e, i) :: parts)) (mkStyle col z) = Ok ds /\
  paint inside ds p <> Some (Some col) /\ ((exists e' i', In (e', i') parts /\ inside (removelast e') p = true) -> paint inside ds p = Some None).
Proof. exact C97_parts_refuted_pf. Qed.
Print Assumptions C97_parts_refuted.

(** Points, lines and rings are drawn through their coordinates; empty shapes as nothing;
    shapes of other kinds are refused; several points or lines and collections, although documented, are an error. *)
Theorem C97_others : forall s,
  (forall p, add_shape (Point p) s = Ok [DPoint p s]) /\ (forall l, l <> [] -> add_shape (LineString l) s = Ok [DLine l s] /\ add_shape (LinearRing l) s = Ok [DLine l s]) /\
  (forall sh, is_empty sh = true -> add_shape sh s = Ok []) /\ (exists e, add_shape OtherShape s = Err e).
Proof. exact C97_others_pf. Qed.
Print Assumptions C97_others.

Theorem C97_documented_refuted : forall s, (forall l, l <> [] -> add_shape (MultiPoint l) s = Err PyTypeError) /\ (forall l, l <> [] -> add_shape (MultiLineString l) s = Err PyTypeError) /\ (forall l, l <> [] -> add_shape (GeometryCollection l) s = Err PyTypeError).
Proof. exact C97_documented_refuted_pf. Qed.
Print Assumptions C97_documented_refuted.

(** A square with a square hole: a pixel in the hole with and without zorder. *)
Example C97_ex : let box (x0 x1 : R) := [(x0, x0); (x1, x0); (x1, x1); (x0, x1); (x0, x0)] in
  exists inside : list vec -> vec -> bool, inside (removelast (box 0 10)) (5, 5) = true /\ inside (removelast (box 4 6)) (5, 5) = true /\
    (exists ds, add_shape (Polygon (box 0 10) [box 4 6]) (mkStyle "red" None) = Ok ds /\ paint inside ds (5, 5) = Some None) /\
    (exists ds, add_shape (Polygon (box 0 10) [box 4 6]) (mkStyle "red" (Some zENV_OBSTACLE)) = Ok ds /\ paint inside ds (5, 5) = Some (Some "red"%string)).
Proof.
  intro box. exists (fun _ _ => true). split; [reflexivity|]. split; [reflexivity|]. split.
  - destruct (C97_polygon (fun _ _ => true) (box 0 10) [box 4 6] "red" None (5, 5)) as (ds & E & P); [discriminate|discriminate|]. exists ds. split; [exact E|exact P].
  - apply C97_holes_refuted; [discriminate|unfold zENV_OBSTACLE; lra|reflexivity].
Qed.

(** ** C98 *)

(** The arena shows the exterior of every obstacle in its colour and of every static goal in
    the colour of its player, and nothing else in colour. *)
Theorem C98_arena : forall models obstacles missions,
  (forall sh col, In (sh, col) obstacles -> exists e i, sh = Polygon e i /\ e <> []) ->
  (forall p m, In (p, m) missions -> mi_static m = true -> (exists col, agetE String.eqb models p = Ok col) /\ exists e i, mi_geometry m 0 = Ok (Polygon e i) /\ e <> []) ->
  exists ds, plot_arena models obstacles missions = Ok ds /\ (forall d, In d ds -> exists ring s, d = DPatch ring s) /\ forall ring c z, In (DPatch ring (Some (mkStyle c z))) ds <->
    (exists e i, In (Polygon e i, c) obstacles /\ ring = removelast e /\ z = Some zENV_OBSTACLE) \/
    (exists p m e i, In (p, m) missions /\ mi_static m = true /\ mi_geometry m 0 = Ok (Polygon e i) /\ agetE String.eqb models p = Ok c /\ ring = removelast e /\ z = Some zGOAL).
Proof. exact C98_arena_pf. Qed.
Print Assumptions C98_arena.

(** A pixel in an obstacle shows an obstacle around it, also where there is a goal. *)
Theorem C98_obstacles_over_goals : forall inside models obstacles missions ds p e i c,
  (forall sh col, In (sh, col) obstacles -> exists e i, sh = Polygon e i /\ e <> []) ->
  (forall p m, In (p, m) missions -> mi_static m = true -> (exists col, agetE String.eqb models p = Ok col) /\ exists e i, mi_geometry m 0 = Ok (Polygon e i) /\ e <> []) ->
  plot_arena models obstacles missions = Ok ds -> In (Polygon e i, c) obstacles -> inside (removelast e) p = true ->
  exists e' i' c', In (Polygon e' i', c') obstacles /\ inside (removelast e') p = true /\ paint inside ds p = Some (Some c').
Proof. exact C98_obstacles_over_goals_pf. Qed.
Print Assumptions C98_obstacles_over_goals.

(** An arena with a player whose goal is a pose cannot be drawn at all. *)
Theorem C98_pose_goal_refuted : forall models obstacles missions p polygon (buffer : vec -> vec -> R -> polygon) to_shape gp tol,
  In (p, mkMission true (fun t => bind (get_plottable_geometry buffer (PoseGoal gp tol) t) (fun x => Ok (to_shape x)))) missions -> exists e, plot_arena models obstacles missions = Err e.
Proof. exact C98_pose_goal_refuted_pf. Qed.
Print Assumptions C98_pose_goal_refuted.

(** The goal of a player that moves is drawn where it is at the time of the last frame; a
    static one is not drawn again. *)
Theorem C98_moving_goal : forall models missions name m col ts t e i, agetE String.eqb missions name = Ok m -> mi_static m = false -> agetE String.eqb models name = Ok col ->
  (forall x, In x ts -> exists e i, mi_geometry m x = Ok (Polygon e i)) -> mi_geometry m t = Ok (Polygon e i) ->
  draw_goal_frames models missions name None (ts ++ [t]) = Ok (Some (Fill col e)).
Proof. exact C98_moving_goal_pf. Qed.
Print Assumptions C98_moving_goal.

Theorem C98_static_goal : forall models missions name m ts, agetE String.eqb missions name = Ok m -> mi_static m = true -> draw_goal_frames models missions name None ts = Ok None /\
  (forall box, ts <> [] -> draw_goal_frames models missions name box ts = Ok None).
Proof. exact C98_static_goal_pf. Qed.
Print Assumptions C98_static_goal.

(** Trajectories that are given from the first frame on: the drawing is that of the last
    frame with trajectories that can be drawn. *)
Theorem C98_trajectories_partial : forall models p c e0 es e, agetE String.eqb models p = Ok c -> drawable e0 -> last_drawable (e0 :: es) e -> draw_extras models p e0 es = Some (drawn e).
Proof. exact C98_trajectories_partial_pf. Qed.
Print Assumptions C98_trajectories_partial.

(** Trajectories that are first given later are never drawn. *)
Theorem C98_late_refuted : forall models p c e0 es, agetE String.eqb models p = Ok c -> ~ drawable e0 -> draw_extras models p e0 es = None.
Proof. exact C98_late_refuted_pf. Qed.
Print Assumptions C98_late_refuted.

(** Trajectories that are not given any more stay in the drawing. *)
Theorem C98_stale_refuted : forall models p c e0 n, agetE String.eqb models p = Ok c -> drawable e0 -> draw_extras models p e0 (repeat NoExtra n) = Some (drawn e0).
Proof. exact C98_stale_refuted_pf. Qed.
Print Assumptions C98_stale_refuted.

Example C98_ex : let e := Trajectories [([((0, 0), Some 1); ((1, 0), Some 1)], "g"%string)] in
  drawable e /\ drawn e = mkTA [[(0, 0); (1, 0)]] (Many ["g"%string]) [(0, 0); (1, 0)] /\ draw_extras [("P"%string, "b"%string)] "P" NoExtra [e; e] = None.
Proof.
  intro e. assert (D : drawable e). { eexists. split; [reflexivity|]. split; [discriminate|]. intros t [<-|[]]. split; [discriminate|]. intros s [<-|[<-|[]]]; discriminate. }
  split; [exact D|]. split; reflexivity.
Qed.

(** ** C99 *)

(** The log of a player in the current figure: one plot for each field of the states and of
    the commands, one below the other, with the values of the field at their times; nothing
    else changes. *)
Theorem C99_player : forall T V (s : pyplot T V) f states commands sf cf, py_current T V s = Some f -> has_fields T V states sf -> has_fields T V commands cf ->
  exists s' new, plot_player_log T V (states, commands) (Some f) s = Ok s' /\ axes_of T V s' f = axes_of T V s f ++ new /\ (forall f', f' <> f -> axes_of T V s' f' = axes_of T V s f') /\ plots_of T V states commands sf cf new.
Proof. exact C99_player_pf. Qed.
Print Assumptions C99_player.

(** The logs of several players: those of the players asked for, in the order of the log. *)
Theorem C99_players : forall T V (s : pyplot T V) f sim_log only, py_current T V s = Some f ->
  (forall p l, In (p, l) sim_log -> exists sf cf, has_fields T V (fst l) sf /\ has_fields T V (snd l) cf) ->
  let chosen := filter (fun e => match only with Some o => existsb (String.eqb (fst e)) o | None => true end) sim_log in
  exists s' news, plot_players_logs T V sim_log (Some f) only s = Ok s' /\ axes_of T V s' f = axes_of T V s f ++ concat news /\ (forall f', f' <> f -> axes_of T V s' f' = axes_of T V s f') /\
    Forall2 (fun e new => exists sf cf, has_fields T V (fst (snd e)) sf /\ has_fields T V (snd (snd e)) cf /\ plots_of T V (fst (snd e)) (snd (snd e)) sf cf new) chosen news.
Proof. exact C99_players_pf. Qed.
Print Assumptions C99_players.

(** Without a figure the current one is used, after making axes in an empty one. *)
Theorem C99_default_figure : forall T V (s : pyplot T V) f log, py_current T V s = Some f -> axes_of T V s f <> [] -> plot_player_log T V log None s = plot_player_log T V log (Some f) s.
Proof. exact C99_default_figure_pf. Qed.
Print Assumptions C99_default_figure.

(** In a figure that is not the current one only empty plots are made: the curves go to the
    current figure. *)
Theorem C99_other_figure_refuted : forall T V (s : pyplot T V) f g states commands sf cf, py_current T V s = Some g -> g <> f -> has_fields T V states sf -> has_fields T V commands cf ->
  exists s' new, plot_player_log T V (states, commands) (Some f) s = Ok s' /\ axes_of T V s' f = axes_of T V s f ++ new /\ length new = (length sf + length cf)%nat /\ forall a, In a new -> ax_curves T V a = [].
Proof. exact C99_other_figure_refuted_pf. Qed.
Print Assumptions C99_other_figure_refuted.

(** A log without states or without commands is an error. *)
Theorem C99_empty : forall T V (s : pyplot T V) fig states commands, (states = [] \/ (exists sf, has_fields T V states sf) /\ commands = []) -> plot_player_log T V (states, commands) fig s = Err PyIndexError.
Proof. exact C99_empty_pf. Qed.
Print Assumptions C99_empty.

Example C99_ex : let st := [(0%nat, [("x", 1%nat); ("v", 2%nat)]); (1%nat, [("x", 3%nat); ("v", 2%nat)])]%string in let cm := [(0%nat, [("acc", 0%nat)])]%string in
  has_fields nat nat st ["x"; "v"]%string /\ has_fields nat nat cm ["acc"]%string /\ exists s', plot_player_log nat nat (st, cm) None (mkPyplot nat nat [] None) = Ok s' /\ length (axes_of nat nat s' 1) = 4%nat.
Proof.
  intros st cm. split; [split; [discriminate|intros e [<-|[<-|[]]]; reflexivity]|]. split; [split; [discriminate|intros e [<-|[]]; reflexivity]|]. eexists. split; vm_compute; reflexivity.
Qed.
