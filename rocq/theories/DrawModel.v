(** Model of the drawing of players, goals, trajectories, shapes and logs:
    sim/simulator_visualisation.py, maps/shapely_viz.py, sim/log_visualisation.py, the
    drawing of trajectories of sim/simulator_animation.py, and the bodies of rockets,
    spaceships, spacecraft and pedestrians.  Numbers are reals.  Sizes of lines,
    transparency and fonts are left out. *)
From Coq Require Import String Reals List Bool Arith.
From Verif Require Import Base R2 GeoModel LaneModel BodyModel DynModel LightModel.
Import ListNotations.
Open Scope R_scope.
Local Open Scope string_scope.
Import LaneModel.

(** *** Bodies *)

Section Bodies.
(** shapely.ops.unary_union of polygons given by their rings: the vertices of the
    exterior of the result. *)
Variable unary_union : list (list vec) -> list vec.
(** Segments of a quarter of a circle of Point.buffer (16). *)
Variable quad : nat.

(** RocketGeometry, rocket_structures.py:27-48, and default, 50-80: the argument l is not
    used. *)
Record rocket_geometry := mkRG { rg_w_half : R; rg_l_c : R; rg_l_f : R; rg_l_m : R; rg_l_r : R; rg_l : R; rg_l_t_half : R; rg_w_t_half : R; rg_F_max : R }.
Definition rocket_default (w_half l_c l_f l_m l_r l l_t_half w_t_half F_max : R) : rocket_geometry :=
  mkRG w_half l_c l_f l_m l_r (l_r + l_m + l_f + l_c) l_t_half w_t_half F_max.
Definition rocket_default0 : rocket_geometry := rocket_default (2 / 10) (3 / 10) (5 / 100) (25 / 100) (3 / 10) (9 / 10) (2 / 10) (1 / 100) 2.
(** width, rocket_structures.py:82-84. *)
Definition rocket_width (g : rocket_geometry) : R := rg_w_half g * 2.
(** outline, rocket_structures.py:86-110. *)
Definition rocket_outline (g : rocket_geometry) : list vec :=
  let body := [(- rg_l_r g, rg_w_half g); (rg_l_f g + rg_l_m g, rg_w_half g); (rg_l_f g + rg_l_m g, - rg_w_half g); (- rg_l_r g, - rg_w_half g); (- rg_l_r g, rg_w_half g)] in
  let header := [(rg_l_f g + rg_l_m g, rg_w_half g); (rg_l_f g + rg_l_m g + rg_l_c g, 0); (rg_l_f g + rg_l_m g, - rg_w_half g); (rg_l_f g + rg_l_m g, rg_w_half g)] in
  unary_union [body; header].
(** thruster_outline, rocket_structures.py:120-133 and spaceship_structures.py:114-127
    (the exterior of a polygon given by a closed ring is the ring). *)
Definition nozzle_outline (w_half l_half : R) : list vec := [(0, - w_half); (0, w_half); (l_half, w_half); (l_half, - w_half); (0, - w_half)].
(** flame_outline, rocket_structures.py:148-160 and spaceship_structures.py:141-153;
    F_max is assumed to be other than 0. *)
Definition flame_outline (w_half l_half F_max F : R) : list vec :=
  let l_flame := F / F_max / 2 in
  [(l_half, - w_half); (l_flame + l_half, 0); (l_half, w_half); (l_half, - w_half)].
(** thrusters_position and flame_position, rocket_structures.py:135-141, 162-168. *)
Definition rocket_thrusters_position (g : rocket_geometry) (phi : R) : list mat :=
  [SE2_from_translation_angle (rg_l_m g, - rg_w_half g / 10) (phi + PI / 2); SE2_from_translation_angle (rg_l_m g, rg_w_half g / 10) (- phi - PI / 2)].
(** [f(x) for x in l].
    Used for [rocket_thrusters], rocket_structures.py:143-146; [rocket_flames], rocket_structures.py:170-177. *)
Fixpoint mapE {A B} (f : A -> result B) (l : list A) : result (list B) :=
  match l with [] => Ok [] | a :: r => bind (f a) (fun b => bind (mapE f r) (fun bs => Ok (b :: bs))) end.
(** thrusters_outline_in_body_frame, rocket_structures.py:143-146. *)
Definition rocket_thrusters (g : rocket_geometry) (phi : R) : result (list (list vec)) :=
  mapE (fun q => transform_xy q (nozzle_outline (rg_w_t_half g) (rg_l_t_half g))) (rocket_thrusters_position g phi).
(** flames_outline_in_body_frame, rocket_structures.py:170-177. *)
Definition rocket_flames (g : rocket_geometry) (phi : R) (F_left F_right : R) : result (list (list vec)) :=
  mapE (fun qF => transform_xy (fst qF) (flame_outline (rg_w_t_half g) (rg_l_t_half g) (rg_F_max g) (snd qF))) (combine (rocket_thrusters_position g phi) [F_left; F_right]).

(** SpaceshipGeometry, spaceship_structures.py:24-69; l, 75-78; outline, 80-104. *)
Record spaceship_geometry := mkHG { hg_w_half : R; hg_l_c : R; hg_l_f : R; hg_l_r : R; hg_l_t_half : R; hg_w_t_half : R; hg_F_max : R }.
Definition spaceship_default0 : spaceship_geometry := mkHG (4 / 10) (8 / 10) (5 / 10) 1 (3 / 10) (5 / 100) 3.
Definition spaceship_width (g : spaceship_geometry) : R := hg_w_half g * 2.
Definition spaceship_l (g : spaceship_geometry) : R := hg_l_f g + hg_l_r g + hg_l_c g.
Definition spaceship_outline (g : spaceship_geometry) : list vec :=
  let body := [(- hg_l_r g, hg_w_half g); (hg_l_f g, hg_w_half g); (hg_l_f g, - hg_w_half g); (- hg_l_r g, - hg_w_half g); (- hg_l_r g, hg_w_half g)] in
  let header := [(hg_l_f g, hg_w_half g); (hg_l_f g + hg_l_c g, 0); (hg_l_f g, - hg_w_half g); (hg_l_f g, hg_w_half g)] in
  unary_union [body; header].
(** thrusters_position, flame_position, thrusters_outline_in_body_frame and
    flames_outline_in_body_frame, spaceship_structures.py:129-169. *)
Definition spaceship_thrusters_position (g : spaceship_geometry) (phi : R) : list mat := [SE2_from_translation_angle (- hg_l_r g, 0) (phi + PI)].
Definition spaceship_thrusters (g : spaceship_geometry) (phi : R) : result (list (list vec)) :=
  mapE (fun q => transform_xy q (nozzle_outline (hg_w_t_half g) (hg_l_t_half g))) (spaceship_thrusters_position g phi).
Definition spaceship_flames (g : spaceship_geometry) (phi command : R) : result (list (list vec)) :=
  mapE (fun q => transform_xy q (flame_outline (hg_w_t_half g) (hg_l_t_half g) (hg_F_max g) command)) (spaceship_thrusters_position g phi).

(** shapely.affinity.scale about the centre of the bounding box, here (0, 0).
    Used for [spacecraft_outline], spacecraft_structures.py:24-35; [pedestrian_outline], pedestrian.py:23-28. *)
Definition scale (xfact yfact : R) (ring : list vec) : list vec := map (fun v => (xfact * fst v, yfact * snd v)) ring.
(** SpacecraftGeometry, spacecraft_structures.py:24-35 (the assertion), width, 56-59,
    outline, 61-79. *)
Record spacecraft_geometry := mkSG { sg_w_half : R; sg_lf : R; sg_lr : R }.
Definition spacecraft_geometry_init (w_half lf lr : R) : result spacecraft_geometry := if ltb lf lr then Ok (mkSG w_half lf lr) else Err PyAssertionError.
Definition spacecraft_width (g : spacecraft_geometry) : R := sg_w_half g * 2.
Definition spacecraft_outline (g : spacecraft_geometry) : list vec :=
  let ellipse := scale (sg_lf g / sg_w_half g) 1 (circle quad (sg_w_half g)) in
  let rect := [(- sg_lr g, sg_w_half g); (- sg_lr g, - sg_w_half g); (1 / 1000, - sg_w_half g); (1 / 1000, sg_w_half g); (- sg_lr g, sg_w_half g)] in
  unary_union [ellipse; rect].
(** thruster_shape, thruster_outline, thrusters_position,
    thrusters_outline_in_body_frame, spacecraft_structures.py:89-107. *)
Definition spacecraft_thrusters (g : spacecraft_geometry) : result (list (list vec)) :=
  mapE (fun q => transform_xy q (wheel_ring (15 / 100) (5 / 10))) [SE2_from_translation_angle (- sg_lr g, - sg_w_half g) 0; SE2_from_translation_angle (- sg_lr g, sg_w_half g) 0].

(** PedestrianGeometry.outline, pedestrian.py:23-28. *)
Definition pedestrian_outline : list vec := scale 1 (15 / 10) (circle quad (5 / 10)).

(** The geometry of a model, for the seven kinds of models; the parameters of rockets and
    spaceships; the shape of an obstacle is given by its exterior.
    Used for [get_footprint], vehicle.py:211-216; [rocket_outline], rocket_structures.py:86-110. *)
Inductive body :=
| BVehicle (g : vehicle_geometry)
| BPedestrian
| BSpacecraft (g : spacecraft_geometry)
| BRocket (g : rocket_geometry) (p : rpar)
| BSpaceship (g : spaceship_geometry) (p : rpar)
| BObstacle (shape : list vec)
| BDiffDrive (wheelbase wheelradius radius : R).

(** get_footprint with the pose (p, psi): vehicle.py:211-216, pedestrian.py:222-227,
    spacecraft.py:206-212, rocket.py:250-256, spaceship.py:243-249,
    obstacles_dyn.py:202-204, diff_drive.py:171-175; the validity of the polygon is not
    modelled. *)
Definition get_footprint (b : body) (p : vec) (psi : R) : result (list vec) :=
  let moved o := Ok (apply_SE2_to_shapely_geo o (SE2_from_translation_angle p psi)) in
  match b with
  | BVehicle g => vehicle_footprint g p psi
  | BPedestrian => moved pedestrian_outline
  | BSpacecraft g => moved (spacecraft_outline g)
  | BRocket g _ => moved (rocket_outline g)
  | BSpaceship g _ => moved (spaceship_outline g)
  | BObstacle shape => moved shape
  | BDiffDrive _ _ r => Ok (diff_drive_footprint quad r p psi)
  end.

(** *** Players *)

(** The artists of matplotlib that are kept: a filled polygon (Axes.fill) with its colour
    and vertices, a text with its position; a circle patch.
    Used for [plot_vehicle], simulator_visualisation.py:279-337; [plot_pedestrian], simulator_visualisation.py:360-386; [plot_lights], simulator_visualisation.py:340-351. *)
Inductive artist := Fill (c : string) (xy : list vec) | Label (s : string) (pos : vec).
Record patch_circle := mkCircle { pc_center : vec; pc_radius : R; pc_color : color }.
(** Polygon.set_xy, Text.set_position; the other artist has no such method.  (An exception
    ends the drawing: artists changed before it are not given back.).
    Used for [plot_spaceship], simulator_visualisation.py:487-528; [plot_player], simulator_visualisation.py:123-221; [plot_vehicle], simulator_visualisation.py:279-337. *)
Definition set_xy (l : list vec) (a : artist) : result artist := match a with Fill c _ => Ok (Fill c l) | Label _ _ => Err PyAttributeError end.
Definition set_position (p : vec) (a : artist) : result artist := match a with Label s _ => Ok (Label s p) | Fill _ _ => Err PyAttributeError end.
(** handles[i].f().
    Used for [plot_spaceship], simulator_visualisation.py:487-528; [plot_player], simulator_visualisation.py:123-221. *)
Fixpoint at_handle (i : nat) (f : artist -> result artist) (h : list artist) : result (list artist) :=
  match h, i with
  | [], _ => Err PyIndexError
  | a :: r, O => bind (f a) (fun a' => Ok (a' :: r))
  | a :: r, S j => bind (at_handle j f r) (fun r' => Ok (a :: r'))
  end.
(** for idx, handle in enumerate(h): handle.set_xy(outlines[idx]).
    Used for [plot_rocket], simulator_visualisation.py:428-484. *)
Fixpoint set_all (h : list artist) (outlines : list (list vec)) : result (list artist) :=
  match h, outlines with
  | [], _ => Ok []
  | _ :: _, [] => Err PyIndexError
  | a :: r, o :: os => bind (set_xy o a) (fun a' => bind (set_all r os) (fun r' => Ok (a' :: r')))
  end.
(** The same for the handles i to j - 1 (handles[i:j]), or from i.
    Used for [plot_rocket], simulator_visualisation.py:428-484; [plot_vehicle], simulator_visualisation.py:279-337; [plot_spacecraft], simulator_visualisation.py:389-425. *)
Definition set_slice (i j : nat) (h : list artist) (outlines : list (list vec)) : result (list artist) :=
  bind (set_all (firstn (j - i) (skipn i h)) outlines) (fun m => Ok (app (firstn i h) (app m (skipn j h)))).
Definition set_from (i : nat) (h : list artist) (outlines : list (list vec)) : result (list artist) :=
  bind (set_all (skipn i h) outlines) (fun m => Ok (app (firstn i h) m)).

(** x4, y4 = transform_xy(q, ((0, 0),))[0].
    Used for [plot_vehicle], simulator_visualisation.py:279-337; [plot_pedestrian], simulator_visualisation.py:360-386. *)
Definition centre (q : mat) : result vec := bind (transform_xy q [(0, 0)]) (fun l => item l 0).
(** The body and the name: the first two handles.
    Used for [plot_vehicle], simulator_visualisation.py:279-337; [plot_pedestrian], simulator_visualisation.py:360-386. *)
Definition draw_body (q : mat) (o : list vec) (h : list artist) : result (list artist) :=
  bind (centre q) (fun xy => bind (transform_xy q o) (fun l => bind (at_handle 0 (set_xy l) h) (fun h => at_handle 1 (set_position xy) h))).
(** Handles made by the first call: a box, the name, and [n] black and [m] red boxes.
    Used for [plot_vehicle], simulator_visualisation.py:279-337; [plot_pedestrian], simulator_visualisation.py:360-386. *)
Definition new_handles (q : mat) (col name : string) (n m : nat) : result (list artist) :=
  bind (centre q) (fun xy => Ok (app [Fill col []; Label name xy] (app (repeat (Fill "k" []) n) (repeat (Fill "r" []) m)))).
Definition handles_or (h : option (list artist)) (new : result (list artist)) : result (list artist) := match h with Some h => Ok h | None => new end.

(** asdict(lights_colors)[name].
    Used for [plot_lights], simulator_visualisation.py:340-351; [move_lights], simulator_visualisation.py:327-335. *)
Definition light_of (lc : lights_colors) (name : string) : result color :=
  if String.eqb name "front_left" then Ok (front_left lc) else if String.eqb name "front_right" then Ok (front_right lc)
  else if String.eqb name "back_left" then Ok (back_left lc) else if String.eqb name "back_right" then Ok (back_right lc) else Err PyKeyError.
(** _plot_lights, simulator_visualisation.py:340-351.  asdict(None) is a TypeError. *)
Definition plot_lights (q : mat) (lights_colors : option lights_colors) (g : vehicle_geometry) : result (list patch_circle) :=
  match lights_colors with
  | None => Err PyTypeError
  | Some lc =>
      bind (lights_position g) (fun lp =>
      mapE (fun np => let '(name, position) := np in bind (light_of lc name) (fun light_color => bind (transform_xy q [position]) (fun l => bind (item l 0) (fun xy =>
        Ok (mkCircle xy (4 / 100 * width g) light_color))))) lp)
  end.
(** for i, name in enumerate(vg.lights_position): lights_patches[i]...,
    simulator_visualisation.py:327-335. *)
Fixpoint move_lights (q : mat) (lc : lights_colors) (lp : list (string * vec)) (patches : list patch_circle) : result (list patch_circle) :=
  match lp, patches with
  | [], _ => Ok patches
  | _ :: _, [] => Err PyIndexError
  | (name, position) :: lp', c :: cs =>
      bind (light_of lc name) (fun light_color => bind (transform_xy q [position]) (fun l => bind (item l 0) (fun xy =>
      bind (move_lights q lc lp' cs) (fun cs' => Ok (mkCircle xy (pc_radius c) light_color :: cs')))))
  end.
(** plot_vehicle, simulator_visualisation.py:279-337; vehicle_poly and lights_patches are
    the handles of an earlier call. *)
Definition plot_vehicle (name col : string) (g : vehicle_geometry) (p : vec) (psi delta : R) (lights_colors : option lights_colors)
    (vehicle_poly : option (list artist)) (lights_patches : option (list patch_circle)) (plot_wheels plot_ligths : bool) : result (list artist * option (list patch_circle)) :=
  bind (outline g) (fun vehicle_outline =>
  let q := SE2_from_translation_angle p psi in
  bind (handles_or vehicle_poly (new_handles q col name (if plot_wheels then n_wheels g else 0) 0)) (fun h =>
  bind (match vehicle_poly with
        | Some _ => Ok lights_patches
        | None => if plot_ligths then bind (plot_lights q lights_colors g) (fun l => Ok (Some l)) else Ok lights_patches
        end) (fun patches =>
  bind (draw_body q vehicle_outline h) (fun h =>
  bind (if plot_wheels then bind (get_rotated_wheels_outlines g delta) (fun w => set_from 2 h (map (transform q) w)) else Ok h) (fun h =>
  bind (if plot_ligths then
          match lights_colors, patches with
          | None, _ => Err PyTypeError
          | Some lc, Some cs => bind (lights_position g) (fun lp => bind (move_lights q lc lp cs) (fun cs => Ok (Some cs)))
          | Some lc, None => Err PyTypeError
          end
        else Ok patches) (fun patches =>
  Ok (h, patches))))))).

(** plot_pedestrian, simulator_visualisation.py:360-386. *)
Definition plot_pedestrian (name col : string) (p : vec) (psi : R) (ped_poly : option (list artist)) : result (list artist) :=
  let q := SE2_from_translation_angle p psi in
  bind (handles_or ped_poly (new_handles q col name 0 0)) (draw_body q pedestrian_outline).
(** plot_spacecraft, simulator_visualisation.py:389-425. *)
Definition plot_spacecraft (name col : string) (g : spacecraft_geometry) (p : vec) (psi : R) (scraft_poly : option (list artist)) : result (list artist) :=
  let q := SE2_from_translation_angle p psi in
  bind (handles_or scraft_poly (new_handles q col name 2 0)) (fun h =>
  bind (draw_body q (spacecraft_outline g) h) (fun h =>
  bind (spacecraft_thrusters g) (fun t => bind (mapE (transform_xy q) t) (set_from 2 h)))).
(** plot_rocket, simulator_visualisation.py:428-484. *)
Definition plot_rocket (name col : string) (g : rocket_geometry) (rp : rpar) (p : vec) (psi phi m : R) (F_left F_right : R) (rocket_poly : option (list artist)) : result (list artist) :=
  let q := SE2_from_translation_angle p psi in
  bind (handles_or rocket_poly (new_handles q col name 2 2)) (fun h =>
  bind (draw_body q (rocket_outline g) h) (fun h =>
  bind (rocket_thrusters g phi) (fun t => bind (mapE (transform_xy q) t) (fun t =>
  bind (set_slice 2 4 h t) (fun h =>
  if ltb (rp_mv rp) m then
    bind (rocket_flames g phi F_left F_right) (fun f => bind (mapE (transform_xy q) f) (set_from 4 h))
  else set_from 4 h (repeat [(0, 0)] (length (skipn 4 h)))))))).
(** plot_spaceship, simulator_visualisation.py:487-528. *)
Definition plot_spaceship (name col : string) (g : spaceship_geometry) (sp : rpar) (p : vec) (psi delta m : R) (thrust : R) (spaceship_poly : option (list artist)) : result (list artist) :=
  let q := SE2_from_translation_angle p psi in
  bind (handles_or spaceship_poly (new_handles q col name 1 1)) (fun h =>
  bind (draw_body q (spaceship_outline g) h) (fun h =>
  bind (spaceship_thrusters g delta) (fun t => bind (item t 0) (fun t => bind (transform_xy q t) (fun t =>
  bind (at_handle 2 (set_xy t) h) (fun h =>
  if ltb (rp_mv sp) m then
    bind (spaceship_flames g delta thrust) (fun f => bind (item f 0) (fun f => bind (transform_xy q f) (fun f => at_handle 3 (set_xy f) h)))
  else at_handle 3 (set_xy [(0, 0)]) h)))))).
(** plot_diffdrive, simulator_visualisation.py:586-630. *)
Definition plot_diffdrive (name col : string) (wheelbase wheelradius radius : R) (p : vec) (psi : R) (diff_drive_poly : option (list artist)) (plot_wheels : bool) : result (list artist) :=
  let q := SE2_from_translation_angle p psi in
  bind (handles_or diff_drive_poly (new_handles q col name (if plot_wheels then 2 else 0) 0)) (fun h =>
  bind (draw_body q (circle quad radius) h) (fun h =>
  if plot_wheels then set_from 2 h (map (transform q) (diff_drive_wheels wheelbase wheelradius)) else Ok h)).

(** The fields of a state and of commands that are drawn; any other object is
    [SOther], [COther].
    Used for [plot_player], simulator_visualisation.py:123-221; [frame], simulator_animation.py:82-93. *)
Inductive dstate :=
| SVehicle (p : vec) (psi delta : R) | SPedestrian (p : vec) (psi : R) | SSpacecraft (p : vec) (psi : R) | SRocket (p : vec) (psi phi m : R)
| SSpaceship (p : vec) (psi delta m : R) | SObstacle (p : vec) (psi : R) | SDiffDrive (p : vec) (psi : R) | SOther.
Inductive dcommand := CRocket (F_left F_right : R) | CSpaceship (thrust : R) | COther.
(** SimRenderer.plot_player, simulator_visualisation.py:123-221; [models] gives the
    geometry and the colour of each player.  A state with the geometry of another model,
    or commands of another model, lack an attribute; that this happens before anything is
    drawn is a simplification. *)
Definition plot_player (models : list (string * (body * string))) (player_name : string) (state : dstate) (command : dcommand) (lights_colors : option lights_colors)
    (model_poly : option (list artist)) (lights_patches : option (list patch_circle)) (plot_wheels plot_ligths : bool) : result (list artist * option (list patch_circle)) :=
  let without_lights r := bind r (fun h => Ok (h, Some [])) in
  bind (agetE String.eqb models player_name) (fun mg => let '(b, col) := mg in
  match state, b with
  | SVehicle p psi delta, BVehicle g => plot_vehicle player_name col g p psi delta lights_colors model_poly lights_patches plot_wheels plot_ligths
  | SPedestrian p psi, BPedestrian => without_lights (plot_pedestrian player_name col p psi model_poly)
  | SSpacecraft p psi, BSpacecraft g => without_lights (plot_spacecraft player_name col g p psi model_poly)
  | SRocket p psi phi m, BRocket g rp =>
      match command with CRocket l r => without_lights (plot_rocket player_name col g rp p psi phi m l r model_poly) | _ => Err PyAttributeError end
  | SSpaceship p psi delta m, BSpaceship g sp =>
      match command with CSpaceship t => without_lights (plot_spaceship player_name col g sp p psi delta m t model_poly) | _ => Err PyAttributeError end
  | SObstacle p psi, BObstacle shape =>
      without_lights (bind (handles_or model_poly (Ok [Fill col []])) (at_handle 0 (set_xy (apply_SE2_to_shapely_geo shape (SE2_from_translation_angle p psi)))))
  | SDiffDrive p psi, BDiffDrive wb wr r => without_lights (plot_diffdrive player_name col wb wr r p psi model_poly plot_wheels)
  | SOther, _ => Err ZValueError
  | _, _ => Err PyAttributeError
  end).

(** The drawing of a player in the frames of an animation: the handles of a frame are those
    given to the next one, simulator_animation.py:82-93, 119-132 (lights and wheels are
    asked for there). *)
Record frame := mkFrame { f_state : dstate; f_command : dcommand; f_lights : option lights_colors }.
Definition draw_frame (models : list (string * (body * string))) (player_name : string) (wheels lights : bool) (h : option (list artist)) (cs : option (list patch_circle)) (f : frame) :=
  plot_player models player_name (f_state f) (f_command f) (f_lights f) h cs wheels lights.
Fixpoint draw_frames (models : list (string * (body * string))) (player_name : string) (wheels lights : bool) (h : list artist) (cs : option (list patch_circle)) (fs : list frame)
  : result (list artist * option (list patch_circle)) :=
  match fs with
  | [] => Ok (h, cs)
  | f :: fs' => bind (draw_frame models player_name wheels lights (Some h) cs f) (fun r => draw_frames models player_name wheels lights (fst r) (snd r) fs')
  end.
Definition draw_animation (models : list (string * (body * string))) (player_name : string) (wheels lights : bool) (f0 : frame) (fs : list frame) :=
  bind (draw_frame models player_name wheels lights None None f0) (fun r => draw_frames models player_name wheels lights (fst r) (snd r) fs).
End Bodies.

(** *** Trajectories *)

(** The states of a trajectory by their positions and, if they have it, vx.
    Used for [plot_trajectories0], simulator_visualisation.py:248-276; [plot_trajectories], simulator_visualisation.py:223-245. *)
Definition traj := list (vec * option R).
Inductive colors := One (c : string) | Many (cs : list string).
(** LineCollection (segments and colour) and PathCollection (offsets).
    Used for [plot_trajectories0], simulator_visualisation.py:248-276; [plot_trajectories], simulator_visualisation.py:223-245. *)
Record traj_artists := mkTA { ta_segments : list (list vec); ta_color : colors; ta_offsets : list vec }.
(** np.vstack([[x.x, x.y, x.vx] for x in traj.values]): AttributeError without vx,
    ValueError without states.
    Used for [plot_trajectories0], simulator_visualisation.py:248-276. *)
Definition sampled_traj (t : traj) : result (list vec) :=
  if forallb (fun s => match snd s with Some _ => true | None => false end) t
  then match t with [] => Err PyValueError | _ => Ok (map fst t) end else Err PyAttributeError.
(** plot_trajectories, simulator_visualisation.py:248-276; np.concatenate of no arrays is a
    ValueError. *)
Definition plot_trajectories0 (trajectories : list traj) (handles : option traj_artists) (cols : colors) : result traj_artists :=
  bind (mapE sampled_traj trajectories) (fun segments =>
  match segments with [] => Err PyValueError | _ => Ok (mkTA segments cols (concat segments)) end).
(** SimRenderer.plot_trajectories, simulator_visualisation.py:223-245. *)
Definition plot_trajectories (models : list (string * string)) (player_name : string) (trajectories : list traj) (handles : option traj_artists) (cols : option (list string)) : result traj_artists :=
  bind (agetE String.eqb models player_name) (fun mg_color =>
  match cols with
  | None => plot_trajectories0 trajectories handles (One mg_color)
  | Some cs => if (length cs =? length trajectories)%nat then plot_trajectories0 trajectories handles (Many cs) else Err PyAssertionError
  end).
(** What an agent gives to be drawn: nothing (or an empty list), trajectories with colours,
    or something that is not a sequence of pairs.
    Used for [first_extra], simulator_animation.py:94-101. *)
Inductive extra := NoExtra | Trajectories (l : list (traj * string)) | OtherExtra.
(** The drawing of the extras of a player, simulator_animation.py:94-101 (first frame) and
    133-145: the artists are kept for the player; any exception is ignored.  traj_lines[pname]
    is a KeyError when no artists are kept. *)
Definition first_extra (models : list (string * string)) (pname : string) (e : extra) : option traj_artists :=
  match e with
  | NoExtra | OtherExtra | Trajectories [] => None
  | Trajectories l => match plot_trajectories models pname (map fst l) None (Some (map snd l)) with Ok a => Some a | Err _ => None end
  end.
Definition next_extra (models : list (string * string)) (pname : string) (kept : option traj_artists) (e : extra) : option traj_artists :=
  match e with
  | NoExtra | OtherExtra | Trajectories [] => kept
  | Trajectories l =>
      match kept with
      | None => kept
      | Some a => match plot_trajectories models pname (map fst l) (Some a) (Some (map snd l)) with Ok a' => Some a' | Err _ => kept end
      end
  end.
Definition draw_extras (models : list (string * string)) (pname : string) (e0 : extra) (es : list extra) : option traj_artists :=
  fold_left (next_extra models pname) es (first_extra models pname e0).

(** *** Shapes *)

(** The geometries of shapely; lists are coordinates (a ring has the first vertex again at
    the end).
    Used for [get_footprint], vehicle.py:211-216; [plot_player], simulator_visualisation.py:123-221; [add_shape], shapely_viz.py:31-56. *)
Inductive shape :=
| Point (p : vec) | MultiPoint (l : list vec) | LineString (l : list vec) | LinearRing (l : list vec) | MultiLineString (l : list (list vec))
| Polygon (exterior : list vec) (interiors : list (list vec)) | MultiPolygon (l : list (list vec * list (list vec))) | GeometryCollection (l : list shape) | OtherShape.
Definition null {A} (l : list A) : bool := match l with [] => true | _ => false end.
(** is_empty; parts of multi-part shapes are taken to be non-empty.
    Used for [add_shape], shapely_viz.py:31-56. *)
Definition is_empty (s : shape) : bool :=
  match s with
  | Point _ | OtherShape => false
  | MultiPoint l | LineString l | LinearRing l => null l
  | MultiLineString l => null l
  | Polygon e _ => null e
  | MultiPolygon l => null l
  | GeometryCollection l => null l
  end.
(** The style of a drawing: the colour and the zorder, if given.
    Used for [plot_polys], shapely_viz.py:100-120; [add_shape], shapely_viz.py:31-56. *)
Record style := mkStyle { st_color : string; st_zorder : option R }.
(** What is added to the axes: a line, a dot, or a filled patch with its ring (open);
    [None] for the style is the colour of the background of the axes.
    Used for [plot_polys], shapely_viz.py:100-120; [add_shape], shapely_viz.py:31-56. *)
Inductive drawing := DPoint (p : vec) (s : style) | DLine (l : list vec) (s : style) | DPatch (ring : list vec) (s : option style).
(** _get_poly_coordinates, shapely_viz.py:122-148. *)
Definition poly_coordinates (e : list vec) (interiors : list (list vec)) : list (list vec) := removelast e :: map (@removelast vec) interiors.
(** _plot_polys, shapely_viz.py:100-120: the first ring in the style, all others in the
    colour of the background. *)
Definition plot_polys (rings : list (list vec)) (s : style) : list drawing :=
  match rings with [] => [] | r :: rs => DPatch r (Some s) :: map (fun r => DPatch r None) rs end.
(** add_shape, shapely_viz.py:31-56, with _plot_points and _plot_lines, 58-95.  Multi-part
    geometries of shapely 2 are not iterable: TypeError.  NotImplementedError is
    [PyOther]. *)
Definition add_shape (sh : shape) (s : style) : result (list drawing) :=
  if is_empty sh then Ok []
  else match sh with
  | Point p => Ok [DPoint p s]
  | LineString l | LinearRing l => Ok [DLine l s]
  | Polygon e i => Ok (plot_polys (poly_coordinates e i) s)
  | MultiPolygon l => Ok (plot_polys (concat (map (fun p => poly_coordinates (fst p) (snd p)) l)) s)
  | MultiPoint _ | MultiLineString _ | GeometryCollection _ => Err PyTypeError
  | OtherShape => Err PyOther
  end.

(** *** The arena *)

(** ZOrders, simulator_visualisation.py:63-71. *)
Definition zGOAL : R := 30.
Definition zENV_OBSTACLE : R := 32.
(** A mission: is_static and get_plottable_geometry.
    Used for [draw_goals], simulator_visualisation.py:88-105. *)
Record mission := mkMission { mi_static : bool; mi_geometry : R -> result shape }.
(** plot_arena, simulator_visualisation.py:88-105, without the lanelet network;
    NotImplementedError ([PyOther]) is ignored for goals. *)
Fixpoint draw_obstacles (obstacles : list (shape * string)) : result (list drawing) :=
  match obstacles with
  | [] => Ok []
  | (sh, col) :: r => bind (add_shape sh (mkStyle col (Some zENV_OBSTACLE))) (fun d => bind (draw_obstacles r) (fun ds => Ok (app d ds)))
  end.
Fixpoint draw_goals (models : list (string * string)) (missions : list (string * mission)) : result (list drawing) :=
  match missions with
  | [] => Ok []
  | (p, goal) :: r =>
      if mi_static goal then
        bind (agetE String.eqb models p) (fun goal_color =>
        match bind (mi_geometry goal 0) (fun sh => add_shape sh (mkStyle goal_color (Some zGOAL))) with
        | Ok d => bind (draw_goals models r) (fun ds => Ok (app d ds))
        | Err PyOther => draw_goals models r
        | Err e => Err e
        end)
      else draw_goals models r
  end.
Definition plot_arena (models : list (string * string)) (obstacles : list (shape * string)) (missions : list (string * mission)) : result (list drawing) :=
  bind (draw_obstacles obstacles) (fun a => bind (draw_goals models missions) (fun b => Ok (app a b))).
(** plot_timevarying_goals, simulator_visualisation.py:107-121; a geometry without
    exterior is an AttributeError. *)
Definition plot_timevarying_goals (models : list (string * string)) (missions : list (string * mission)) (player_name : string) (t : R) (goal_box : option artist) : result (option artist) :=
  bind (agetE String.eqb missions player_name) (fun goal =>
  if mi_static goal then Ok None
  else bind (agetE String.eqb models player_name) (fun col => bind (mi_geometry goal t) (fun sh =>
    match sh with
    | Polygon e _ => bind (set_xy e (match goal_box with Some b => b | None => Fill col [] end)) (fun b => Ok (Some b))
    | _ => Err PyAttributeError
    end))).
(** The goals of a player in the frames, simulator_animation.py:147-149. *)
Fixpoint draw_goal_frames (models : list (string * string)) (missions : list (string * mission)) (player_name : string) (box : option artist) (ts : list R) : result (option artist) :=
  match ts with
  | [] => Ok box
  | t :: r => bind (plot_timevarying_goals models missions player_name t box) (fun b => draw_goal_frames models missions player_name b r)
  end.

(** *** Logs *)

(** A log of a player: timestamps and the fields of states and commands.  [V] is the type
    of values.
    Used for [plot_fields], log_visualisation.py:33-39; [plot_player_log], log_visualisation.py:24-48. *)
Section Logs.
Variables T V : Type.
Definition record_log := list (T * list (string * V)).
(** Axes: (rows, columns, index) and the curves drawn: label, points, step or line.
    Used for [plot_fields], log_visualisation.py:33-39; [plot_player_log], log_visualisation.py:24-48. *)
Record curve := mkCurve { cu_label : string; cu_points : list (T * V); cu_step : bool }.
Record axes := mkAxes { ax_rows : nat; ax_index : nat; ax_curves : list curve }.
(** pyplot: the figures, by number, with their axes (the current one of each figure is the
    last added), and the current figure.
    Used for [plot_fields], log_visualisation.py:33-39; [plot_player_log], log_visualisation.py:24-48. *)
Record pyplot := mkPyplot { py_figures : list (nat * list axes); py_current : option nat }.
Definition axes_of (s : pyplot) (f : nat) : list axes := match aget Nat.eqb (py_figures s) f with Some l => l | None => [] end.
(** fig.add_subplot.  Used for [plot_fields], log_visualisation.py:33-39. *)
Definition add_subplot (f rows index : nat) (s : pyplot) : pyplot := mkPyplot (aset Nat.eqb (py_figures s) f (axes_of s f ++ [mkAxes rows index []])%list) (py_current s).
(** plt.gca(): the current figure, or a new one; its current axes, or new ones.
    Used for [plot_fields], log_visualisation.py:33-39. *)
Definition fresh (s : pyplot) : nat := S (fold_right Nat.max 0%nat (akeys (py_figures s))).
Definition gca (s : pyplot) : nat * pyplot :=
  let '(f, s) := match py_current s with Some f => (f, s) | None => (fresh s, mkPyplot (aset Nat.eqb (py_figures s) (fresh s) []) (Some (fresh s))) end in
  (f, if null (axes_of s f) then add_subplot f 1 1 s else s).
(** plt.plot, plt.step.  Used for [plot_fields], log_visualisation.py:33-39. *)
Definition add_last (c : curve) (l : list axes) : list axes :=
  match rev l with [] => [] | a :: r => (rev r ++ [mkAxes (ax_rows a) (ax_index a) (ax_curves a ++ [c])])%list end.
Definition plt_plot (c : curve) (s : pyplot) : pyplot :=
  let '(f, s) := gca s in mkPyplot (aset Nat.eqb (py_figures s) f (add_last c (axes_of s f))) (py_current s).
(** [getattr(s, field.name) for s in log.values] with the timestamps.
    Used for [plot_fields], log_visualisation.py:33-39. *)
Definition column (log : record_log) (field : string) : result (list (T * V)) :=
  mapE (fun e => match aget String.eqb (snd e) field with Some v => Ok (fst e, v) | None => Err PyAttributeError end) log.
(** log_visualisation.py:33-39, 41-47. *)
Fixpoint plot_fields (f rows offset : nat) (step : bool) (log : record_log) (fields : list string) (s : pyplot) : result pyplot :=
  match fields with
  | [] => Ok s
  | field :: r =>
      bind (column log field) (fun points =>
      plot_fields f rows (S offset) step log r (plt_plot (mkCurve field points step) (add_subplot f rows (S offset) s)))
  end.
(** fields(log.values[0]).
    Used for [plot_fields], log_visualisation.py:33-39; [plot_player_log], log_visualisation.py:24-48; [plot_players_logs], log_visualisation.py:13-20. *)
Definition fields (log : record_log) : result (list string) := bind (item log 0) (fun e => Ok (map fst (snd e))).
Definition figure_or (fig : option nat) (s : pyplot) : nat * pyplot := match fig with Some f => (f, s) | None => gca s end.
(** plot_player_log, log_visualisation.py:24-48. *)
Definition plot_player_log (log : record_log * record_log) (fig : option nat) (s : pyplot) : result pyplot :=
  let '(f, s) := figure_or fig s in
  let '(states, commands) := log in
  bind (fields states) (fun state_fields => bind (fields commands) (fun cmds_fields =>
  let n_states := length state_fields in
  let rows := (n_states + length cmds_fields)%nat in
  bind (plot_fields f rows 0 false states state_fields s) (fun s =>
  plot_fields f rows n_states true commands cmds_fields s))).
(** plot_players_logs, log_visualisation.py:13-20. *)
Definition plot_players_logs (sim_log : list (string * (record_log * record_log))) (fig : option nat) (only_players : option (list string)) (s : pyplot) : result pyplot :=
  let '(f, s) := figure_or fig s in
  fold_left (fun acc e => bind acc (fun s =>
    match only_players with
    | Some only => if existsb (String.eqb (fst e)) only then plot_player_log (snd e) (Some f) s else Ok s
    | None => plot_player_log (snd e) (Some f) s
    end)) sim_log (Ok s).
End Logs.
