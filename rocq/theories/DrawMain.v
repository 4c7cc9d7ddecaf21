(* Generated from tools/Draw.src by tools/gen_props.py. *)
(** Properties of the drawings of players, shapes, arenas and logs. *)
From Coq Require Import String Reals Lra Psatz List Bool ZArith Lia Arith.
From Verif Require Import Base R2 GeoModel GeoSpec GeoProofs LaneModel LaneProofs BodyModel BodySpec BodyProofs DynModel LightModel GoalModel DrawModel DrawSpec DictLemmas DrawProofs.
Import ListNotations.
Import LaneModel.
Open Scope R_scope.

(** After any number of frames a vehicle is drawn as its footprint at the last state, with
    its name at its position, its wheels where the vehicle has them with the steering angle,
    and its lights in the colours of the last frame. *)
Lemma C95_vehicle_pf : forall union quad models name col g wheels lights f0 fs p psi delta c lc,
  agetE String.eqb models name = Ok (BVehicle g, col) -> In (g_type g) vehicle_types ->
  (forall f, In f (f0 :: fs) -> exists p psi delta c lc, f = mkFrame (SVehicle p psi delta) c (Some lc)) ->
  last fs f0 = mkFrame (SVehicle p psi delta) c (Some lc) ->
  exists body ws bl br fl fr, get_footprint union quad (BVehicle g) p psi = Ok body /\ get_rotated_wheels_outlines g delta = Ok ws /\
    lights_position g = Ok [("back_left", bl); ("back_right", br); ("front_left", fl); ("front_right", fr)]%string /\
    draw_animation union quad models name wheels lights f0 fs =
      Ok (Fill col body :: Label name p :: (if wheels then map (fun w => Fill "k" (map (in_world p psi) w)) ws else []),
          if lights then let light v c := mkCircle (in_world p psi v) (4 / 100 * width g) c in
            Some [light bl (back_left lc); light br (back_right lc); light fl (front_left lc); light fr (front_right lc)] else None).
Proof.
  intros union quad models name col g wheels lights f0 fs p psi delta c lc M T G L.
  destruct (outline_box g T) as (t & r & f & E & _ & _ & B & O).
  assert (NW : (n_wheels g =? 2)%nat || (n_wheels g =? 4)%nat = true) by (unfold n_wheels, wheels_position; destruct (four (g_type g)); reflexivity).
  set (ws := fun delta => map (fun ip : nat * vec => let '(i, p) := ip in transform (SE2_from_translation_angle p (if (2 * i <? n_wheels g)%nat then delta else 0)) (wheel_ring t r)) (combine (List.seq 0 (n_wheels g)) (wheels_position g))).
  assert (W : forall d, get_rotated_wheels_outlines g d = Ok (ws d)) by (intro d; unfold get_rotated_wheels_outlines, wheel_outline; rewrite NW, E; reflexivity).
  assert (WL : forall d, length (ws d) = n_wheels g) by (intro d; unfold ws; rewrite map_length, combine_length, seq_length; unfold n_wheels; lia).
  assert (LP : exists bl br fl fr, lights_position g = Ok [("back_left", bl); ("back_right", br); ("front_left", fl); ("front_right", fr)]%string) by (unfold lights_position; rewrite E, B; cbn [bind fst snd]; do 4 eexists; reflexivity).
  destruct LP as (bl & br & fl & fr & LP).
  exists (map (in_world p psi) (box_ring (- g_lr g - r * 2) (g_lf g + f) (g_w_half g + t))), (ws delta), bl, br, fl, fr.
  split. { cbn [get_footprint]. unfold vehicle_footprint. rewrite O. cbn [bind]. f_equal. apply apply_world. }
  split; [apply W|]. split; [exact LP|].
  set (pic := fun fr' : frame => match fr' with
    | mkFrame (SVehicle p psi delta) _ (Some lc) =>
      (Fill col (map (in_world p psi) (box_ring (- g_lr g - r * 2) (g_lf g + f) (g_w_half g + t))) :: Label name p :: (if wheels then map (Fill "k") (map (map (in_world p psi)) (ws delta)) else []),
       if lights then let light v c := mkCircle (in_world p psi v) (4 / 100 * width g) c in Some [light bl (back_left lc); light br (back_right lc); light fl (front_left lc); light fr (front_right lc)] else None)
    | _ => ([], None) end).
  rewrite (frames_last union quad models name wheels lights pic (fun fr' => exists p psi delta c lc, fr' = mkFrame (SVehicle p psi delta) c (Some lc))).
  - rewrite L. cbn [pic]. rewrite map_map. reflexivity.
  - intros fr' (p' & psi' & d' & c' & lc' & ->). unfold draw_frame, plot_player. cbn [f_state f_command f_lights]. rewrite M. cbn [bind]. unfold plot_vehicle. rewrite O. cbn [bind handles_or]. rewrite new_handles_ok. cbn [bind].
    rewrite (plot_lights_ok g p' psi' lc' bl br fl fr LP). rewrite draw_body_ok by discriminate. destruct lights; cbn [bind]; rewrite ?draw_body_ok by discriminate; cbn [bind]; rewrite W, ?LP; cbn [bind].
    all: destruct wheels; cbn [bind]; [unfold set_from; cbn [skipn firstn repeat]; rewrite app_nil_r, repeat_fill, set_all_k by (rewrite repeat_length, map_length, WL; reflexivity); cbn [bind app]; rewrite (map_ext (transform _) (map (in_world p' psi'))) by (intro; apply transform_world)|].
    all: rewrite ?move_lights_ok; reflexivity.
  - intros f1 f2 (p' & psi' & d' & c' & lc' & ->) (p2 & psi2 & d2 & c2 & lc2 & ->). unfold draw_frame, plot_player. cbn [f_state f_command f_lights]. rewrite M. cbn [bind pic fst snd]. unfold plot_vehicle. rewrite O. cbn [bind handles_or].
    rewrite draw_body_ok by discriminate. cbn [bind]. rewrite W. cbn [bind]. rewrite LP.
    destruct wheels; cbn [bind]; [unfold set_from; cbn [skipn firstn repeat]; rewrite set_all_k by (rewrite !map_length, !WL; reflexivity); cbn [bind app]; rewrite (map_ext (transform _) (map (in_world p2 psi2))) by (intro; apply transform_world)|].
    all: destruct lights; [cbn [bind]; fold (four_lights g p' psi' lc' bl br fl fr); rewrite move_lights_ok|]; reflexivity.
  - exact G.
Qed.

(** The same for pedestrians. *)
Lemma C95_pedestrian_pf : forall union quad models name col wheels lights f0 fs p psi c lc,
  agetE String.eqb models name = Ok (BPedestrian, col) -> (forall f, In f (f0 :: fs) -> exists p psi, f_state f = SPedestrian p psi) -> last fs f0 = mkFrame (SPedestrian p psi) c lc ->
  exists body, get_footprint union quad BPedestrian p psi = Ok body /\ draw_animation union quad models name wheels lights f0 fs = Ok ([Fill col body; Label name p], Some []).
Proof.
  intros union quad models name col wheels lights f0 fs p psi c lc M G L. assert (NE : pedestrian_outline quad <> []) by (unfold pedestrian_outline, scale, circle; rewrite Nat.add_1_r; discriminate).
  exists (map (in_world p psi) (pedestrian_outline quad)). split; [cbn [get_footprint]; f_equal; apply apply_world|].
  rewrite (frames_last union quad models name wheels lights (fun f => match f_state f with SPedestrian p psi => ([Fill col (map (in_world p psi) (pedestrian_outline quad)); Label name p], Some []) | _ => ([], None) end) (fun f => exists p psi, f_state f = SPedestrian p psi)).
  - rewrite L. reflexivity.
  - intros f (p' & psi' & E). unfold draw_frame, plot_player. rewrite E, M. cbn [bind]. unfold plot_pedestrian. cbn [handles_or]. rewrite new_handles_ok. cbn [bind repeat app]. rewrite draw_body_ok by exact NE. reflexivity.
  - intros f f' (p' & psi' & E) (p2 & psi2 & E2). unfold draw_frame, plot_player. rewrite E, E2, M. cbn [bind fst snd]. unfold plot_pedestrian. cbn [handles_or bind]. rewrite draw_body_ok by exact NE. reflexivity.
  - exact G.
Qed.

(** The same for obstacles, which have no name. *)
Lemma C95_obstacle_pf : forall union quad models name col shape wheels lights f0 fs p psi c lc,
  agetE String.eqb models name = Ok (BObstacle shape, col) -> (forall f, In f (f0 :: fs) -> exists p psi, f_state f = SObstacle p psi) -> last fs f0 = mkFrame (SObstacle p psi) c lc ->
  exists body, get_footprint union quad (BObstacle shape) p psi = Ok body /\ draw_animation union quad models name wheels lights f0 fs = Ok ([Fill col body], Some []).
Proof.
  intros union quad models name col shape wheels lights f0 fs p psi c lc M G L. eexists. split; [reflexivity|].
  rewrite (frames_last union quad models name wheels lights (fun f => match f_state f with SObstacle p psi => ([Fill col (apply_SE2_to_shapely_geo shape (SE2_from_translation_angle p psi))], Some []) | _ => ([], None) end) (fun f => exists p psi, f_state f = SObstacle p psi)).
  - rewrite L. reflexivity.
  - intros f (p' & psi' & E). unfold draw_frame, plot_player. rewrite E, M. reflexivity.
  - intros f f' (p' & psi' & E) (p2 & psi2 & E2). unfold draw_frame, plot_player. rewrite E, E2, M. reflexivity.
  - exact G.
Qed.

(** The same for differential drive robots, with their wheels. *)
Lemma C95_diff_drive_pf : forall union quad models name col wb wr r wheels lights f0 fs p psi c lc,
  agetE String.eqb models name = Ok (BDiffDrive wb wr r, col) -> (forall f, In f (f0 :: fs) -> exists p psi, f_state f = SDiffDrive p psi) -> last fs f0 = mkFrame (SDiffDrive p psi) c lc ->
  exists body, get_footprint union quad (BDiffDrive wb wr r) p psi = Ok body /\
    draw_animation union quad models name wheels lights f0 fs = Ok (Fill col body :: Label name p :: (if wheels then map (fun w => Fill "k" (map (in_world p psi) w)) (diff_drive_wheels wb wr) else []), Some []).
Proof.
  intros union quad models name col wb wr r wheels lights f0 fs p psi c lc M G L. assert (NE : circle quad r <> []) by (unfold circle; rewrite Nat.add_1_r; discriminate).
  exists (map (in_world p psi) (circle quad r)). split; [cbn [get_footprint]; unfold diff_drive_footprint; f_equal; apply apply_world|].
  rewrite (frames_last union quad models name wheels lights (fun f => match f_state f with SDiffDrive p psi => (Fill col (map (in_world p psi) (circle quad r)) :: Label name p :: (if wheels then map (Fill "k") (map (map (in_world p psi)) (diff_drive_wheels wb wr)) else []), Some []) | _ => ([], None) end) (fun f => exists p psi, f_state f = SDiffDrive p psi)).
  - rewrite L. cbn [f_state]. rewrite map_map. reflexivity.
  - intros f (p' & psi' & E). unfold draw_frame, plot_player. rewrite E, M. cbn [bind]. unfold plot_diffdrive. cbn [handles_or]. rewrite new_handles_ok. cbn [bind]. rewrite draw_body_ok by exact NE. cbn [bind].
    destruct wheels; [|reflexivity]. unfold set_from. cbn [skipn firstn repeat]. rewrite app_nil_r, (map_ext (transform _) (map (in_world p' psi'))) by (intro; apply transform_world). reflexivity.
  - intros f f' (p' & psi' & E) (p2 & psi2 & E2). unfold draw_frame, plot_player. rewrite E, E2, M. cbn [bind fst snd]. unfold plot_diffdrive. cbn [handles_or bind]. rewrite draw_body_ok by exact NE. cbn [bind].
    destruct wheels; [|reflexivity]. unfold set_from. cbn [skipn firstn]. rewrite (map_ext (transform _) (map (in_world p2 psi2))) by (intro; apply transform_world). reflexivity.
  - exact G.
Qed.

(** The same for spacecraft, with their thrusters at the back corners. *)
Lemma C95_spacecraft_pf : forall union quad models name col g wheels lights f0 fs p psi c lc,
  agetE String.eqb models name = Ok (BSpacecraft g, col) -> spacecraft_outline union quad g <> [] -> (forall f, In f (f0 :: fs) -> exists p psi, f_state f = SSpacecraft p psi) -> last fs f0 = mkFrame (SSpacecraft p psi) c lc ->
  exists body, get_footprint union quad (BSpacecraft g) p psi = Ok body /\
    let thruster y := Fill "k" (part_in_world p psi (- sg_lr g, y) 0 (wheel_ring (15 / 100) (1 / 2))) in
    draw_animation union quad models name wheels lights f0 fs = Ok ([Fill col body; Label name p; thruster (- sg_w_half g); thruster (sg_w_half g)], Some []).
Proof.
  intros union quad models name col g wheels lights f0 fs p psi c lc M NE G L. exists (map (in_world p psi) (spacecraft_outline union quad g)). split; [cbn [get_footprint]; f_equal; apply apply_world|]. cbv zeta.
  set (pic := fun f => match f_state f with SSpacecraft p psi => let thruster y := Fill "k" (part_in_world p psi (- sg_lr g, y) 0 (wheel_ring (15 / 100) (5 / 10))) in ([Fill col (map (in_world p psi) (spacecraft_outline union quad g)); Label name p; thruster (- sg_w_half g); thruster (sg_w_half g)], Some (@nil patch_circle)) | _ => ([], None) end).
  rewrite (frames_last union quad models name wheels lights pic (fun f => exists p psi, f_state f = SSpacecraft p psi)).
  - rewrite L. cbn [pic f_state]. replace (5 / 10) with (1 / 2) by lra. reflexivity.
  - intros f (p' & psi' & E). unfold draw_frame, plot_player, pic. rewrite E, M. cbn [bind]. unfold plot_spacecraft. cbn [handles_or]. rewrite new_handles_ok. cbn [bind]. rewrite draw_body_ok by exact NE. cbn [bind].
    unfold spacecraft_thrusters. cbn [mapE]. rewrite !txy by discriminate. cbn [bind mapE]. rewrite !txy by discriminate. cbn [bind]. rewrite !parts_compose. reflexivity.
  - intros f f' (p' & psi' & E) (p2 & psi2 & E2). unfold draw_frame, plot_player, pic. rewrite E, E2, M. cbn [bind fst snd]. unfold plot_spacecraft. cbn [handles_or bind]. rewrite draw_body_ok by exact NE. cbn [bind].
    unfold spacecraft_thrusters. cbn [mapE]. rewrite !txy by discriminate. cbn [bind mapE]. rewrite !txy by discriminate. cbn [bind]. rewrite !parts_compose. reflexivity.
  - exact G.
Qed.

(** The same for rockets: both nozzles at the height of the thrusters, turned by the angle
    of the nozzles; with fuel left, flames as long as the commands of the last frame ask for,
    without fuel single points at the origin of the world. *)
Lemma C95_rocket_pf : forall union quad models name col g rp wheels lights f0 fs p psi phi m Fl Fr lc,
  agetE String.eqb models name = Ok (BRocket g rp, col) -> rocket_outline union g <> [] -> (forall f, In f (f0 :: fs) -> (exists p psi phi m, f_state f = SRocket p psi phi m) /\ exists Fl Fr, f_command f = CRocket Fl Fr) ->
  last fs f0 = mkFrame (SRocket p psi phi m) (CRocket Fl Fr) lc ->
  exists body, get_footprint union quad (BRocket g rp) p psi = Ok body /\
    let at_left := part_in_world p psi (rg_l_m g, - rg_w_half g / 10) (phi + PI / 2) in
    let at_right := part_in_world p psi (rg_l_m g, rg_w_half g / 10) (- phi - PI / 2) in
    let nozzle := nozzle_ring (rg_w_t_half g) (rg_l_t_half g) in
    let flame F := flame_ring (rg_w_t_half g) (rg_l_t_half g) (F / rg_F_max g / 2) in
    let burns := if Rlt_dec (rp_mv rp) m then [at_left (flame Fl); at_right (flame Fr)] else [[(0, 0)]; [(0, 0)]] in
    draw_animation union quad models name wheels lights f0 fs = Ok ([Fill col body; Label name p; Fill "k" (at_left nozzle); Fill "k" (at_right nozzle)] ++ map (Fill "r") burns, Some []).
Proof.
  intros union quad models name col g rp wheels lights f0 fs p psi phi m Fl Fr lc M NE G L. exists (map (in_world p psi) (rocket_outline union g)). split; [cbn [get_footprint]; f_equal; apply apply_world|]. cbv zeta.
  set (pic := fun f => match f_state f, f_command f with SRocket p psi phi m, CRocket Fl Fr =>
    let at_left := part_in_world p psi (rg_l_m g, - rg_w_half g / 10) (phi + PI / 2) in
    let at_right := part_in_world p psi (rg_l_m g, rg_w_half g / 10) (- phi - PI / 2) in
    let nozzle := nozzle_ring (rg_w_t_half g) (rg_l_t_half g) in
    let flame F := flame_outline (rg_w_t_half g) (rg_l_t_half g) (rg_F_max g) F in
    let burns := if ltb (rp_mv rp) m then [at_left (flame Fl); at_right (flame Fr)] else [[(0, 0)]; [(0, 0)]] in
    ([Fill col (map (in_world p psi) (rocket_outline union g)); Label name p; Fill "k" (at_left nozzle); Fill "k" (at_right nozzle)] ++ map (Fill "r") burns, Some (@nil patch_circle)) | _, _ => ([], None) end).
  rewrite (frames_last union quad models name wheels lights pic (fun f => (exists p psi phi m, f_state f = SRocket p psi phi m) /\ exists Fl Fr, f_command f = CRocket Fl Fr)).
  - rewrite L. cbn [pic f_state f_command]. assert (FE : forall F, flame_outline (rg_w_t_half g) (rg_l_t_half g) (rg_F_max g) F = flame_ring (rg_w_t_half g) (rg_l_t_half g) (F / rg_F_max g / 2)) by (intro F; unfold flame_outline, flame_ring; rewrite (Rplus_comm (rg_l_t_half g)); reflexivity).
    rewrite !FE. destruct (Rlt_dec (rp_mv rp) m) as [D|D]; [rewrite (proj2 (ltb_iff _ _) D)|rewrite (proj2 (ltb_false _ _)) by lra]; reflexivity.
  - intros f ((p' & psi' & phi' & m' & E) & Fl' & Fr' & C). unfold draw_frame, plot_player, pic. rewrite E, C, M. cbn [bind]. unfold plot_rocket. cbn [handles_or]. rewrite new_handles_ok. cbn [bind]. rewrite draw_body_ok by exact NE. cbn [bind].
    unfold rocket_thrusters, rocket_flames, rocket_thrusters_position. cbn [mapE combine fst snd]. rewrite !txy by discriminate. cbn [bind mapE]. rewrite !txy by discriminate. cbn [bind]. rewrite !parts_compose. destruct (ltb (rp_mv rp) m'); reflexivity.
  - intros f f' ((p' & psi' & phi' & m' & E) & Fl' & Fr' & C) ((p2 & psi2 & phi2 & m2 & E2) & Fl2 & Fr2 & C2). unfold draw_frame, plot_player, pic. rewrite E, C, E2, C2, M. cbn [bind fst snd]. unfold plot_rocket. cbn [handles_or bind app]. rewrite draw_body_ok by exact NE. cbn [bind].
    unfold rocket_thrusters, rocket_flames, rocket_thrusters_position. cbn [mapE combine fst snd]. rewrite !txy by discriminate. cbn [bind mapE]. rewrite !txy by discriminate. cbn [bind]. rewrite !parts_compose. destruct (ltb (rp_mv rp) m'), (ltb (rp_mv rp) m2); reflexivity.
  - exact G.
Qed.

(** The same for spaceships, with one nozzle at the back. *)
Lemma C95_spaceship_pf : forall union quad models name col g sp wheels lights f0 fs p psi delta m F lc,
  agetE String.eqb models name = Ok (BSpaceship g sp, col) -> spaceship_outline union g <> [] -> (forall f, In f (f0 :: fs) -> (exists p psi delta m, f_state f = SSpaceship p psi delta m) /\ exists F, f_command f = CSpaceship F) ->
  last fs f0 = mkFrame (SSpaceship p psi delta m) (CSpaceship F) lc ->
  exists body, get_footprint union quad (BSpaceship g sp) p psi = Ok body /\
    let at_back := part_in_world p psi (- hg_l_r g, 0) (delta + PI) in
    let burns := if Rlt_dec (rp_mv sp) m then at_back (flame_ring (hg_w_t_half g) (hg_l_t_half g) (F / hg_F_max g / 2)) else [(0, 0)] in
    draw_animation union quad models name wheels lights f0 fs = Ok ([Fill col body; Label name p; Fill "k" (at_back (nozzle_ring (hg_w_t_half g) (hg_l_t_half g))); Fill "r" burns], Some []).
Proof.
  intros union quad models name col g sp wheels lights f0 fs p psi delta m F lc M NE G L. exists (map (in_world p psi) (spaceship_outline union g)). split; [cbn [get_footprint]; f_equal; apply apply_world|]. cbv zeta.
  set (pic := fun f => match f_state f, f_command f with SSpaceship p psi delta m, CSpaceship F =>
    let at_back := part_in_world p psi (- hg_l_r g, 0) (delta + PI) in
    let burns := if ltb (rp_mv sp) m then at_back (flame_outline (hg_w_t_half g) (hg_l_t_half g) (hg_F_max g) F) else [(0, 0)] in
    ([Fill col (map (in_world p psi) (spaceship_outline union g)); Label name p; Fill "k" (at_back (nozzle_ring (hg_w_t_half g) (hg_l_t_half g))); Fill "r" burns], Some (@nil patch_circle)) | _, _ => ([], None) end).
  rewrite (frames_last union quad models name wheels lights pic (fun f => (exists p psi delta m, f_state f = SSpaceship p psi delta m) /\ exists F, f_command f = CSpaceship F)).
  - rewrite L. cbn [pic f_state f_command]. assert (FE : forall F, flame_outline (hg_w_t_half g) (hg_l_t_half g) (hg_F_max g) F = flame_ring (hg_w_t_half g) (hg_l_t_half g) (F / hg_F_max g / 2)) by (intro F'; unfold flame_outline, flame_ring; rewrite (Rplus_comm (hg_l_t_half g)); reflexivity).
    rewrite !FE. destruct (Rlt_dec (rp_mv sp) m) as [D|D]; [rewrite (proj2 (ltb_iff _ _) D)|rewrite (proj2 (ltb_false _ _)) by lra]; reflexivity.
  - intros f ((p' & psi' & phi' & m' & E) & F' & C). unfold draw_frame, plot_player, pic. rewrite E, C, M. cbn [bind]. unfold plot_spaceship. cbn [handles_or]. rewrite new_handles_ok. cbn [bind]. rewrite draw_body_ok by exact NE. cbn [bind].
    unfold spaceship_thrusters, spaceship_flames, spaceship_thrusters_position. cbn [mapE]. rewrite !txy by discriminate. cbn [bind item nth_error]. unfold item. cbn [nth_error bind]. rewrite !txy by discriminate. cbn [bind]. rewrite !parts_compose. destruct (ltb (rp_mv sp) m'); reflexivity.
  - intros f f' ((p' & psi' & phi' & m' & E) & F' & C) ((p2 & psi2 & phi2 & m2 & E2) & F2 & C2). unfold draw_frame, plot_player, pic. rewrite E, C, E2, C2, M. cbn [bind fst snd]. unfold plot_spaceship. cbn [handles_or bind app]. rewrite draw_body_ok by exact NE. cbn [bind].
    unfold spaceship_thrusters, spaceship_flames, spaceship_thrusters_position. cbn [mapE]. rewrite !txy by discriminate. cbn [bind item nth_error]. unfold item. cbn [nth_error bind]. rewrite !txy by discriminate. cbn [bind]. rewrite !parts_compose. destruct (ltb (rp_mv sp) m'), (ltb (rp_mv sp) m2); reflexivity.
  - exact G.
Qed.

(** Players without a model and other states are refused. *)
Lemma C95_refused_pf : forall union quad models name f h cs wheels lights,
  (agetE String.eqb models name = Err PyKeyError -> draw_frame union quad models name wheels lights h cs f = Err PyKeyError) /\
  (forall bc, agetE String.eqb models name = Ok bc -> f_state f = SOther -> draw_frame union quad models name wheels lights h cs f = Err ZValueError).
Proof.
  intros union quad models name f h cs wheels lights. unfold draw_frame, plot_player. split.
  - intros ->. reflexivity.
  - intros [b col] -> ->. destruct b; reflexivity.
Qed.

(** Wheels and lights that are asked for only after the first drawing are not drawn: no
    wheels appear, and the lights are an error. *)
Lemma C95_later_refuted_pf : forall union quad models name col g f f' h cs,
  agetE String.eqb models name = Ok (BVehicle g, col) -> In (g_type g) vehicle_types ->
  (exists p psi delta c lc, f = mkFrame (SVehicle p psi delta) c (Some lc)) -> (exists p psi delta c lc, f' = mkFrame (SVehicle p psi delta) c (Some lc)) ->
  draw_frame union quad models name false false None None f = Ok (h, cs) ->
  (exists h', draw_frame union quad models name true false (Some h) cs f' = Ok (h', cs) /\ length h' = 2%nat) /\
  draw_frame union quad models name true true (Some h) cs f' = Err PyTypeError.
Proof.
  intros union quad models name col g f f' h cs M T (p & psi & d & c & lc & ->) (p' & psi' & d' & c' & lc' & ->) D.
  destruct (outline_box g T) as (t & r & fb & E & _ & _ & B & O).
  assert (NW : (n_wheels g =? 2)%nat || (n_wheels g =? 4)%nat = true) by (unfold n_wheels, wheels_position; destruct (four (g_type g)); reflexivity).
  unfold draw_frame, plot_player in *. cbn [f_state f_command f_lights] in *. rewrite M in *. cbn [bind] in *. unfold plot_vehicle in *. rewrite O in *. cbn [bind handles_or] in *. rewrite new_handles_ok in D. cbn [bind repeat app] in D. rewrite draw_body_ok in D by discriminate. cbn [bind] in D. injection D as <- <-.
  rewrite draw_body_ok by discriminate. cbn [bind]. unfold get_rotated_wheels_outlines, wheel_outline. rewrite NW, E. cbn [bind]. unfold set_from. cbn [skipn firstn set_all bind app]. split; [|reflexivity]. eexists. split; reflexivity.
Qed.

(** The body of a rocket made by default extends from its back to the tip of its nose, over
    its length, and its width is that of the body; the thrusters are not a part of it. *)
Lemma C96_rocket_pf : forall union w l_c l_f l_m l_r l l_t w_t F_max, right_union union -> 0 <= w -> 0 <= l_c -> 0 <= l_f -> 0 <= l_m -> 0 <= l_r ->
  let g := rocket_default w l_c l_f l_m l_r l l_t w_t F_max in
  exists x0 x1 y0 y1, bounding_box (rocket_outline union g) x0 x1 y0 y1 /\ x0 = - l_r /\ x1 = l_f + l_m + l_c /\ x1 - x0 = rg_l g /\ y0 = - w /\ y1 - y0 = rocket_width g.
Proof.
  intros union w l_c l_f l_m l_r l l_t w_t F_max U W C F M R g. exists (- l_r), (l_f + l_m + l_c), (- w), w. split; [|unfold rocket_width; cbn [g rocket_default rg_l rg_w_half]; repeat split; ring].
  apply union_box; [exact U| |].
  - exists (l_f + l_m, w), ((l_f + l_m, w), (l_f + l_m + l_c, 0)). split; [right; left; reflexivity|]. split; [left; reflexivity|]. exists 0. split; [lra|]. unfold vadd, vscale. cbn [fst snd]. f_equal; ring.
  - split; [|split; [|split; [|split]]].
    + intros v V. cbn in V. repeat (destruct V as [V|V]; [subst v; split; cbn [fst snd]; lra|]). contradiction.
    + exists (- l_r, w). split; [left; reflexivity|reflexivity].
    + exists (l_f + l_m + l_c, 0). split; [do 6 right; left; reflexivity|reflexivity].
    + exists (l_f + l_m, - w). split; [do 2 right; left; reflexivity|reflexivity].
    + exists (- l_r, w). split; [left; reflexivity|reflexivity].
Qed.

(** A length that is asked for is not taken. *)
Lemma C96_requested_length_refuted_pf : exists w l_c l_f l_m l_r l l_t w_t F_max, 0 < l /\ rg_l (rocket_default w l_c l_f l_m l_r l l_t w_t F_max) <> l.
Proof. exists (2 / 10), (3 / 10), (5 / 100), (25 / 100), (3 / 10), 5, (2 / 10), (1 / 100), 2. cbn. lra. Qed.

(** The same for a spaceship. *)
Lemma C96_spaceship_pf : forall union g, right_union union -> 0 <= hg_w_half g -> 0 <= hg_l_c g -> 0 <= hg_l_f g -> 0 <= hg_l_r g ->
  exists x0 x1 y0 y1, bounding_box (spaceship_outline union g) x0 x1 y0 y1 /\ x0 = - hg_l_r g /\ x1 = hg_l_f g + hg_l_c g /\ x1 - x0 = spaceship_l g /\ y0 = - hg_w_half g /\ y1 - y0 = spaceship_width g.
Proof.
  intros union [w l_c l_f l_r l_t w_t F_max] U W C F R. cbn [hg_w_half hg_l_c hg_l_f hg_l_r] in *. exists (- l_r), (l_f + l_c), (- w), w. split; [|unfold spaceship_width, spaceship_l; cbn [hg_w_half hg_l_c hg_l_f hg_l_r]; repeat split; ring].
  apply union_box; [exact U| |]; cbn [hg_w_half hg_l_c hg_l_f hg_l_r].
  - exists (l_f, w), ((l_f, w), (l_f + l_c, 0)). split; [right; left; reflexivity|]. split; [left; reflexivity|]. exists 0. split; [lra|]. unfold vadd, vscale. cbn [fst snd]. f_equal; ring.
  - split; [|split; [|split; [|split]]].
    + intros v V. cbn in V. repeat (destruct V as [V|V]; [subst v; split; cbn [fst snd]; lra|]). contradiction.
    + exists (- l_r, w). split; [left; reflexivity|reflexivity].
    + exists (l_f + l_c, 0). split; [do 6 right; left; reflexivity|reflexivity].
    + exists (l_f, - w). split; [do 2 right; left; reflexivity|reflexivity].
    + exists (- l_r, w). split; [left; reflexivity|reflexivity].
Qed.

Lemma circle_in quad r v : In v (circle quad r) -> exists a, v = (r * cos a, - (r * sin a)).
Proof. intro V. unfold circle in V. apply in_map_iff in V. destruct V as (k & <- & _). eexists. reflexivity. Qed.

Lemma circle_at quad r k a : (0 < quad)%nat -> (k <= 4 * quad)%nat -> INR k * (PI / (2 * INR quad)) = a -> In (r * cos a, - (r * sin a)) (circle quad r).
Proof. intros Q K <-. unfold circle. apply in_map_iff. exists k. split; [reflexivity|]. apply in_seq. lia. Qed.

Lemma quads quad (j : nat) : (0 < quad)%nat -> INR (j * quad) * (PI / (2 * INR quad)) = INR j * (PI / 2).
Proof. intro Q. rewrite mult_INR. assert (0 < INR quad) by (apply lt_0_INR; exact Q). field. lra. Qed.

(** A spacecraft extends from its rear length to its front length (or to the millimetre of
    the rectangle), over its width. *)
Lemma C96_spacecraft_pf : forall union quad w lf lr g, right_union union -> (0 < quad)%nat -> 0 < w -> 0 <= lf -> spacecraft_geometry_init w lf lr = Ok g ->
  exists x0 x1 y0 y1, bounding_box (spacecraft_outline union quad g) x0 x1 y0 y1 /\ x0 = - lr /\ x1 = Rmax lf (1 / 1000) /\ y0 = - w /\ y1 - y0 = spacecraft_width g.
Proof.
  intros union quad w lf lr g U Q W F E. unfold spacecraft_geometry_init in E. destruct (ltb lf lr) eqn:L; [|discriminate]. apply ltb_iff in L. injection E as <-. exists (- lr), (Rmax lf (1 / 1000)), (- w), w. split; [|unfold spacecraft_width; cbn [sg_w_half]; repeat split; ring].
  unfold spacecraft_outline. cbn [sg_w_half sg_lf sg_lr].
  assert (IE : forall a, In (w * cos a, - (w * sin a)) (circle quad w) -> In (lf * cos a, - (w * sin a)) (scale (lf / w) 1 (circle quad w))).
  { intros a I. unfold scale. apply in_map_iff. exists (w * cos a, - (w * sin a)). split; [|exact I]. cbn [fst snd]. f_equal; [field; lra|ring]. }
  assert (C1 : forall a, -1 <= cos a <= 1) by (intro; apply COS_bound). assert (S1 : forall a, -1 <= sin a <= 1) by (intro; apply SIN_bound).
  pose proof (Rmax_l lf (1 / 1000)) as ML. pose proof (Rmax_r lf (1 / 1000)) as MR.
  apply union_box; [exact U| |].
  - exists (lf * cos (INR 3 * (PI / 2)), - (w * sin (INR 3 * (PI / 2)))), ((1 / 1000, w), (- lr, w)). split; [apply IE; apply (circle_at quad w (3 * quad)); [exact Q|lia|apply quads; exact Q]|]. split; [do 3 right; left; reflexivity|].
    replace (INR 3 * (PI / 2)) with (3 * (PI / 2)) by (cbn [INR]; ring). rewrite cos_3PI2, sin_3PI2. exists ((1 / 1000) / (1 / 1000 + lr)). split.
    + split; [apply Rmult_le_pos; [lra|left; apply Rinv_0_lt_compat; lra]|]. apply Rmult_le_reg_r with (1 / 1000 + lr); [lra|]. unfold Rdiv at 1. rewrite Rmult_assoc, Rinv_l by lra. lra.
    + unfold vadd, vscale. cbn [fst snd]. f_equal; field; lra.
  - split; [|split; [|split; [|split]]].
    + intros v V. apply in_app_iff in V. destruct V as [V|V].
      * unfold scale in V. apply in_map_iff in V. destruct V as (u & <- & I). apply circle_in in I. destruct I as (a & ->). cbn [fst snd]. specialize (C1 a). specialize (S1 a).
        assert (X : lf / w * (w * cos a) = lf * cos a) by (field; lra). unfold in_box. cbn [fst snd]. rewrite X. split; split; nra.
      * cbn in V. repeat (destruct V as [V|V]; [subst v; split; cbn [fst snd]; lra|]). contradiction.
    + exists (- lr, w). split; [apply in_app_iff; right; left; reflexivity|reflexivity].
    + unfold Rmax. destruct (Rle_dec lf (1 / 1000)).
      * exists (1 / 1000, w). split; [apply in_app_iff; right; do 3 right; left; reflexivity|reflexivity].
      * exists (lf * cos (INR 0 * (PI / 2)), - (w * sin (INR 0 * (PI / 2)))). split; [apply in_app_iff; left; apply IE; apply (circle_at quad w (0 * quad)); [exact Q|lia|apply quads; exact Q]|]. cbn [fst INR]. rewrite Rmult_0_l, cos_0. ring.
    + exists (- lr, - w). split; [apply in_app_iff; right; right; left; reflexivity|reflexivity].
    + exists (- lr, w). split; [apply in_app_iff; right; left; reflexivity|reflexivity].
Qed.

(** A pedestrian is an ellipse of one metre by one and a half. *)
Lemma C96_pedestrian_pf : forall quad, (0 < quad)%nat -> bounding_box (pedestrian_outline quad) (- (1 / 2)) (1 / 2) (- (3 / 4)) (3 / 4) /\
  forall v, In v (pedestrian_outline quad) -> (fst v / (1 / 2)) ^ 2 + (snd v / (3 / 4)) ^ 2 = 1.
Proof.
  intros quad Q. unfold pedestrian_outline.
  assert (IE : forall j, (j <= 4)%nat -> let a := INR j * (PI / 2) in In (1 * (5 / 10 * cos a), 15 / 10 * - (5 / 10 * sin a)) (scale 1 (15 / 10) (circle quad (5 / 10)))).
  { intros j J a. unfold scale. apply in_map_iff. exists (5 / 10 * cos a, - (5 / 10 * sin a)). split; [reflexivity|]. apply (circle_at quad (5 / 10) (j * quad)); [exact Q|nia|apply quads; exact Q]. }
  assert (C1 : forall a, -1 <= cos a <= 1) by (intro; apply COS_bound). assert (S1 : forall a, -1 <= sin a <= 1) by (intro; apply SIN_bound).
  split.
  - split; [|split; [|split; [|split]]].
    + intros v V. unfold scale in V. apply in_map_iff in V. destruct V as (u & <- & I). apply circle_in in I. destruct I as (a & ->). cbn [fst snd]. specialize (C1 a). specialize (S1 a). split; cbn [fst snd]; lra.
    + eexists. split; [apply (IE 2%nat); lia|]. cbn [fst]. replace (INR 2 * (PI / 2)) with PI by (cbn [INR]; field). rewrite cos_PI. lra.
    + eexists. split; [apply (IE 0%nat); lia|]. cbn [fst]. replace (INR 0 * (PI / 2)) with 0 by (cbn [INR]; ring). rewrite cos_0. lra.
    + eexists. split; [apply (IE 1%nat); lia|]. cbn [snd]. replace (INR 1 * (PI / 2)) with (PI / 2) by (cbn [INR]; ring). rewrite sin_PI2. lra.
    + eexists. split; [apply (IE 3%nat); lia|]. cbn [snd]. replace (INR 3 * (PI / 2)) with (3 * (PI / 2)) by (cbn [INR]; ring). rewrite sin_3PI2. lra.
  - intros v V. unfold scale in V. apply in_map_iff in V. destruct V as (u & <- & I). apply circle_in in I. destruct I as (a & ->). cbn [fst snd]. pose proof (sin2_cos2 a) as X. unfold Rsqr in X. transitivity (sin a * sin a + cos a * cos a); [field|exact X].
Qed.

(** The thrusters of every spacecraft stick out of its footprint to both sides. *)
Lemma C96_thrusters_refuted_pf : forall union quad w lf lr g, right_union union -> (0 < quad)%nat -> 0 < w -> 0 <= lf -> spacecraft_geometry_init w lf lr = Ok g ->
  exists right left, spacecraft_thrusters g = Ok [right; left] /\ (exists v, In v right /\ forall u, In u (spacecraft_outline union quad g) -> snd v < snd u) /\ (exists v, In v left /\ forall u, In u (spacecraft_outline union quad g) -> snd u < snd v).
Proof.
  intros union quad w lf lr g U Q W F E. destruct (C96_spacecraft_pf union quad w lf lr g U Q W F E) as (x0 & x1 & y0 & y1 & (B & _) & _ & _ & -> & WI).
  unfold spacecraft_geometry_init in E. destruct (ltb lf lr); [|discriminate]. injection E as <-. unfold spacecraft_width in WI. cbn [sg_w_half] in WI. unfold spacecraft_thrusters. cbn [mapE sg_lr sg_w_half]. rewrite !txy by discriminate. cbn [bind]. do 2 eexists. split; [reflexivity|]. split.
  - exists (in_world (- lr, - w) 0 (5 / 10, - (15 / 100))). split; [left; reflexivity|]. intros u I. destruct (B u I) as [_ [? _]]. unfold in_world. cbn [fst snd]. rewrite sin_0, cos_0. lra.
  - exists (in_world (- lr, w) 0 (- (5 / 10), 15 / 100)). split; [do 2 right; left; reflexivity|]. intros u I. destruct (B u I) as [_ [_ ?]]. unfold in_world. cbn [fst snd]. rewrite sin_0, cos_0. lra.
Qed.

Lemma exhaust_is p psi n a w l : exhaust (part_in_world p psi n a (nozzle_ring w l)) = (l * cos (psi + a), l * sin (psi + a)).
Proof. unfold exhaust, nozzle_outlet, nozzle_base, part_in_world, nozzle_ring, mid, vsub, vscale, vadd, in_world. cbn [map nth fst snd]. f_equal; field. Qed.

Lemma base_is p psi n a w l : nozzle_base (part_in_world p psi n a (nozzle_ring w l)) = in_world p psi n.
Proof. unfold nozzle_base, part_in_world, nozzle_ring, mid, vscale, vadd. cbn [map nth fst snd]. unfold in_world at 1 3 5 7. cbn [fst snd]. destruct (in_world p psi n) as [a1 a2]. cbn [fst snd]. f_equal; field. Qed.

Lemma flame_is p psi n a w s l : flame_vector (part_in_world p psi n a (flame_ring w s l)) = (l * cos (psi + a), l * sin (psi + a)).
Proof. unfold flame_vector, part_in_world, flame_ring, mid, vsub, vscale, vadd. cbn [map nth fst snd]. unfold in_world at 1 3 5 7 9 11. cbn [fst snd]. f_equal; field. Qed.

(** A rocket is pushed by the applied thrusts against the directions in which its nozzles
    are drawn: the force on it, mass times acceleration, is the sum of these. *)
Lemma C96_rocket_thrust_pf : forall g rp Iz x u, 0 < r_m x -> 0 < rg_l_t_half g ->
  let d := rocket_dynamics rp Iz (rg_l_m g) x u in
  let nozzle n a := part_in_world (r_x x, r_y x) (r_psi x) n a (nozzle_ring (rg_w_t_half g) (rg_l_t_half g)) in
  let left := nozzle (rg_l_m g, - rg_w_half g / 10) (r_ang x + PI / 2) in
  let right := nozzle (rg_l_m g, rg_w_half g / 10) (- r_ang x - PI / 2) in
  vnorm (exhaust left) = rg_l_t_half g /\ vnorm (exhaust right) = rg_l_t_half g /\
  let '(Fl, Fr) := rocket_thrust rp x u in
  vscale (r_m x) (r_vx d, r_vy d) = vadd (vscale (- Fl / rg_l_t_half g) (exhaust left)) (vscale (- Fr / rg_l_t_half g) (exhaust right)).
Proof.
  intros g rp Iz x u M L d nozzle left right. assert (NL : forall a, vnorm (rg_l_t_half g * cos a, rg_l_t_half g * sin a) = rg_l_t_half g).
  { intro a. unfold vnorm, vdot. cbn [fst snd]. pose proof (sin2_cos2 a) as X. unfold Rsqr in X. replace (rg_l_t_half g * cos a * (rg_l_t_half g * cos a) + rg_l_t_half g * sin a * (rg_l_t_half g * sin a)) with (rg_l_t_half g * rg_l_t_half g * (sin a * sin a + cos a * cos a)) by ring. rewrite X, Rmult_1_r. apply sqrt_square. lra. }
  unfold left, right, nozzle. rewrite !exhaust_is. split; [apply NL|]. split; [apply NL|]. unfold d, rocket_dynamics. destruct (rocket_thrust rp x u) as [Fl Fr]. cbn [r_vx r_vy].
  replace (r_psi x + (r_ang x + PI / 2)) with (PI / 2 + (r_psi x + r_ang x)) by ring. replace (r_psi x + (- r_ang x - PI / 2)) with (- (PI / 2 + (r_ang x - r_psi x))) by ring.
  rewrite cos_neg, sin_neg. rewrite <- !cos_sin, !(cos_plus (PI / 2)), cos_PI2, sin_PI2. unfold vadd, vscale. cbn [fst snd]. f_equal; field; lra.
Qed.

(** The turning of a rocket is not that of these forces at the drawn nozzles, which are
    beside its axis. *)
Lemma C96_rocket_torque_refuted_pf : exists g rp Iz x u, 0 < r_m x /\ 0 < Iz /\ 0 < rg_l_t_half g /\
  let d := rocket_dynamics rp Iz (rg_l_m g) x u in
  let nozzle n a := part_in_world (r_x x, r_y x) (r_psi x) n a (nozzle_ring (rg_w_t_half g) (rg_l_t_half g)) in
  let left := nozzle (rg_l_m g, - rg_w_half g / 10) (r_ang x + PI / 2) in
  let right := nozzle (rg_l_m g, rg_w_half g / 10) (- r_ang x - PI / 2) in
  let '(Fl, Fr) := rocket_thrust rp x u in
  Iz * r_dpsi d <> vcross (vsub (nozzle_base left) (r_x x, r_y x)) (vscale (- Fl / rg_l_t_half g) (exhaust left)) + vcross (vsub (nozzle_base right) (r_x x, r_y x)) (vscale (- Fr / rg_l_t_half g) (exhaust right)).
Proof.
  exists rocket_default0, rp_default, 1, (mk8 0 0 0 0 0 0 (PI / 6) 3), (mkRC 0 2 0). split; [cbn; lra|]. split; [lra|]. split; [cbn; lra|]. cbv zeta beta. rewrite !exhaust_is, !base_is.
  assert (T : rocket_thrust rp_default (mk8 0 0 0 0 0 0 (PI / 6) 3) (mkRC 0 2 0) = (0, 2)).
  { unfold rocket_thrust, rp_default, DynModel.leb. cbn [r_m rp_mv rc_l rc_r rp_Flo rp_Fhi]. destruct (Rle_dec 3 2); [lra|]. rewrite !force_in by lra. reflexivity. }
  unfold rocket_dynamics. rewrite T. cbn [r_dpsi r_psi r_ang r_m r_x r_y].
  unfold vcross, vsub, vscale, in_world. cbn [fst snd]. rewrite cos_0, sin_0. replace (0 + (- (PI / 6) - PI / 2)) with (- (PI / 6 + PI / 2)) by field. rewrite (Rplus_0_l (PI / 6 + PI / 2)). rewrite cos_neg, sin_neg, cos_plus, sin_plus, cos_PI2, sin_PI2, cos_PI6, sin_PI6. cbn [rocket_default0 rocket_default rg_l_m rg_w_half rg_l_t_half]. lra.
Qed.

(** A spaceship is pushed and turned by the applied thrust at its drawn nozzle, against the
    direction in which it is drawn (the velocity of its state turns with the ship). *)
Lemma C96_spaceship_thrust_pf : forall g sp Iz x u, 0 < r_m x -> Iz <> 0 -> 0 < hg_l_t_half g ->
  let d := spaceship_dynamics sp Iz (hg_l_r g) x u in
  let nozzle := part_in_world (r_x x, r_y x) (r_psi x) (- hg_l_r g, 0) (r_ang x + PI) (nozzle_ring (hg_w_t_half g) (hg_l_t_half g)) in
  let force := vscale (- spaceship_thrust sp x u / hg_l_t_half g) (exhaust nozzle) in
  let inertial := vsub (in_world (0, 0) (r_psi x) (r_vx d, r_vy d)) (in_world (0, 0) (r_psi x) (r_dpsi x * r_vy x, - r_dpsi x * r_vx x)) in
  vscale (r_m x) inertial = force /\ Iz * r_dpsi d = vcross (vsub (nozzle_base nozzle) (r_x x, r_y x)) force.
Proof.
  intros g sp Iz x u M I L d nozzle force inertial. unfold force, nozzle. rewrite exhaust_is, base_is. unfold inertial, d, spaceship_dynamics. cbn [r_vx r_vy r_dpsi]. rewrite <- Rplus_assoc, neg_cos, neg_sin, cos_plus, sin_plus.
  unfold vcross, vsub, vscale, in_world. cbn [fst snd]. split.
  - f_equal; field; lra.
  - pose proof (sin2_cos2 (r_psi x)) as X. unfold Rsqr in X.
    transitivity (- hg_l_r g * (sin (r_ang x) * spaceship_thrust sp x u) * (sin (r_psi x) * sin (r_psi x) + cos (r_psi x) * cos (r_psi x))); [rewrite X; field; lra|field; lra].
Qed.

(** Flames point along their nozzles, and as long as the commands are within the limits and
    there is fuel they are as long as the applied thrusts, by the scale of the drawing. *)
Lemma C96_flames_pf : forall g rp x u, rp_mv rp < r_m x -> rp_Flo rp <= rc_l u <= rp_Fhi rp -> rp_Flo rp <= rc_r u <= rp_Fhi rp -> rg_l_t_half g <> 0 ->
  let at_ n a := part_in_world (r_x x, r_y x) (r_psi x) n a in
  let left := at_ (rg_l_m g, - rg_w_half g / 10) (r_ang x + PI / 2) in
  let right := at_ (rg_l_m g, rg_w_half g / 10) (- r_ang x - PI / 2) in
  let nozzle := nozzle_ring (rg_w_t_half g) (rg_l_t_half g) in
  let flame F := flame_ring (rg_w_t_half g) (rg_l_t_half g) (F / rg_F_max g / 2) in
  let '(Fl, Fr) := rocket_thrust rp x u in
  flame_vector (left (flame (rc_l u))) = vscale (Fl / rg_F_max g / 2 / rg_l_t_half g) (exhaust (left nozzle)) /\
  flame_vector (right (flame (rc_r u))) = vscale (Fr / rg_F_max g / 2 / rg_l_t_half g) (exhaust (right nozzle)).
Proof.
  intros g rp x u M A B L at_ left right nozzle flame. unfold rocket_thrust, DynModel.leb at 1. destruct (Rle_dec (r_m x) (rp_mv rp)); [lra|]. unfold left, right, at_, nozzle, flame. rewrite !flame_is, !exhaust_is.
  rewrite !force_in by assumption. assert (K : forall k c, k * c = k / rg_l_t_half g * (rg_l_t_half g * c)) by (intros k c; field; exact L). unfold vscale. cbn [fst snd]. split; f_equal; apply K.
Qed.

(** Beyond the limits the flame is longer than that of the thrust that is applied. *)
Lemma C96_flames_refuted_pf : exists g rp x u, rp_mv rp < r_m x /\ 0 < rg_F_max g /\
  let left := part_in_world (r_x x, r_y x) (r_psi x) (rg_l_m g, - rg_w_half g / 10) (r_ang x + PI / 2) in
  let flame F := left (flame_ring (rg_w_t_half g) (rg_l_t_half g) (F / rg_F_max g / 2)) in
  vnorm (flame_vector (flame (fst (rocket_thrust rp x u)))) < vnorm (flame_vector (flame (rc_l u))).
Proof.
  exists rocket_default0, rp_default, (mk8 0 0 0 0 0 0 0 3), (mkRC 20 0 0). split; [cbn; lra|]. split; [cbn; lra|]. cbv zeta beta. rewrite !flame_is.
  assert (T : fst (rocket_thrust rp_default (mk8 0 0 0 0 0 0 0 3) (mkRC 20 0 0)) = 2).
  { unfold rocket_thrust, rp_default, DynModel.leb. cbn [r_m rp_mv rc_l rc_r rp_Flo rp_Fhi]. destruct (Rle_dec 3 2); [lra|]. cbn [fst]. apply force_above. lra. }
  rewrite T. cbn [r_psi r_ang rc_l rocket_default0 rocket_default rg_F_max]. replace (0 + (0 + PI / 2)) with (PI / 2) by ring. rewrite cos_PI2, sin_PI2. unfold vnorm, vdot. cbn [fst snd]. apply sqrt_lt_1; lra.
Qed.

(** A polygon drawn with no zorder, or one of at most 1: a pixel in a hole shows the
    background, another one inside the exterior the colour, any other one nothing. *)
Lemma C97_polygon_pf : forall inside e i col z p, e <> [] -> (forall x, z = Some x -> x <= 1) -> exists ds, add_shape (Polygon e i) (mkStyle col z) = Ok ds /\
  paint inside ds p = if existsb (fun h => inside (removelast h) p) i then Some None else if inside (removelast e) p then Some (Some col) else None.
Proof.
  intros inside e i col z p N Z. unfold add_shape. cbn [is_empty]. destruct e as [|v e]; [contradiction|]. cbn [null]. eexists. split; [reflexivity|]. unfold poly_coordinates. cbn [plot_polys]. unfold paint. cbn [fold_left over].
  rewrite <- (existsb_map (@removelast vec) (fun r => inside r p)). destruct (inside (removelast (v :: e)) p).
  - rewrite over_background; [destruct (existsb _ _); reflexivity|]. cbn [z_of]. destruct z as [x|]; [exact (Z x eq_refl)|lra].
  - rewrite over_background_none. destruct (existsb _ _); reflexivity.
Qed.

(** With a greater zorder, as for the obstacles and goals of an arena, the holes are
    covered. *)
Lemma C97_holes_refuted_pf : forall inside e i col z p, e <> [] -> 1 < z -> inside (removelast e) p = true -> exists ds, add_shape (Polygon e i) (mkStyle col (Some z)) = Ok ds /\ paint inside ds p = Some (Some col).
Proof.
  intros inside e i col z p N Z I. unfold add_shape. cbn [is_empty]. destruct e as [|v e]; [contradiction|]. cbn [null]. eexists. split; [reflexivity|]. unfold poly_coordinates. cbn [plot_polys]. unfold paint. cbn [fold_left over]. rewrite I. cbn [z_of option_map st_color]. rewrite over_background_high by exact Z. reflexivity.
Qed.

(** Only the first part of several polygons is in the colour: a pixel outside of it never
    is, and in the other parts the background is painted. *)
Lemma C97_parts_refuted_pf : forall inside e i parts col z p, inside (removelast e) p = false -> exists ds, add_shape (MultiPolygon ((e, i) :: parts)) (mkStyle col z) = Ok ds /\
  paint inside ds p <> Some (Some col) /\ ((exists e' i', In (e', i') parts /\ inside (removelast e') p = true) -> paint inside ds p = Some None).
Proof.
  intros inside e i parts col z p N. unfold add_shape. cbn [is_empty null]. eexists. split; [reflexivity|]. cbn [map concat fst snd poly_coordinates app plot_polys]. unfold paint. cbn [fold_left over]. rewrite N, over_background_none. split; [destruct (existsb _ _); discriminate|].
  intros (e' & i' & I & X). assert (Y : existsb (fun r => inside r p) (map (@removelast vec) i ++ concat (map (fun q => poly_coordinates (fst q) (snd q)) parts)) = true).
  { apply existsb_exists. exists (removelast e'). split; [|exact X]. apply in_app_iff. right. apply in_concat. exists (poly_coordinates e' i'). split; [|left; reflexivity]. apply in_map_iff. exists (e', i'). split; [reflexivity|exact I]. }
  rewrite Y. reflexivity.
Qed.

(** Points, lines and rings are drawn through their coordinates; empty shapes as nothing;
    shapes of other kinds are refused; several points or lines and collections, although documented, are an error. *)
Lemma C97_others_pf : forall s,
  (forall p, add_shape (Point p) s = Ok [DPoint p s]) /\ (forall l, l <> [] -> add_shape (LineString l) s = Ok [DLine l s] /\ add_shape (LinearRing l) s = Ok [DLine l s]) /\
  (forall sh, is_empty sh = true -> add_shape sh s = Ok []) /\ (exists e, add_shape OtherShape s = Err e).
Proof.
  intro s. split; [reflexivity|]. split; [intros [|v l] N; [contradiction|split; reflexivity]|]. split; [intros sh E; unfold add_shape; rewrite E; reflexivity|eexists; reflexivity].
Qed.

Lemma C97_documented_refuted_pf : forall s, (forall l, l <> [] -> add_shape (MultiPoint l) s = Err PyTypeError) /\ (forall l, l <> [] -> add_shape (MultiLineString l) s = Err PyTypeError) /\ (forall l, l <> [] -> add_shape (GeometryCollection l) s = Err PyTypeError).
Proof. intro s. split; [|split]; intros [|v l] N; try contradiction; reflexivity. Qed.

(** The arena shows the exterior of every obstacle in its colour and of every static goal in
    the colour of its player, and nothing else in colour. *)
Lemma C98_arena_pf : forall models obstacles missions,
  (forall sh col, In (sh, col) obstacles -> exists e i, sh = Polygon e i /\ e <> []) ->
  (forall p m, In (p, m) missions -> mi_static m = true -> (exists col, agetE String.eqb models p = Ok col) /\ exists e i, mi_geometry m 0 = Ok (Polygon e i) /\ e <> []) ->
  exists ds, plot_arena models obstacles missions = Ok ds /\ (forall d, In d ds -> exists ring s, d = DPatch ring s) /\ forall ring c z, In (DPatch ring (Some (mkStyle c z))) ds <->
    (exists e i, In (Polygon e i, c) obstacles /\ ring = removelast e /\ z = Some zENV_OBSTACLE) \/
    (exists p m e i, In (p, m) missions /\ mi_static m = true /\ mi_geometry m 0 = Ok (Polygon e i) /\ agetE String.eqb models p = Ok c /\ ring = removelast e /\ z = Some zGOAL).
Proof.
  intros models obstacles missions O M. destruct (draw_obstacles_ok obstacles O) as (d1 & E1 & P1 & Q1). destruct (draw_goals_ok models missions M) as (d2 & E2 & P2 & Q2). unfold plot_arena. rewrite E1. cbn [bind]. rewrite E2. cbn [bind]. exists (d1 ++ d2). split; [reflexivity|]. split.
  - intros d I. apply in_app_iff in I. destruct I; auto.
  - intros ring c z. rewrite in_app_iff, Q1, Q2. reflexivity.
Qed.

(** A pixel in an obstacle shows an obstacle around it, also where there is a goal. *)
Lemma C98_obstacles_over_goals_pf : forall inside models obstacles missions ds p e i c,
  (forall sh col, In (sh, col) obstacles -> exists e i, sh = Polygon e i /\ e <> []) ->
  (forall p m, In (p, m) missions -> mi_static m = true -> (exists col, agetE String.eqb models p = Ok col) /\ exists e i, mi_geometry m 0 = Ok (Polygon e i) /\ e <> []) ->
  plot_arena models obstacles missions = Ok ds -> In (Polygon e i, c) obstacles -> inside (removelast e) p = true ->
  exists e' i' c', In (Polygon e' i', c') obstacles /\ inside (removelast e') p = true /\ paint inside ds p = Some (Some c').
Proof.
  intros inside models obstacles missions ds p e i c O M E I IN. destruct (C98_arena_pf models obstacles missions O M) as (ds' & E' & P & Q). rewrite E in E'. injection E' as <-.
  assert (D : In (DPatch (removelast e) (Some (mkStyle c (Some zENV_OBSTACLE)))) ds) by (apply Q; left; exists e, i; auto). unfold paint. pose proof (top inside p ds None) as X. destruct (fold_left (over inside p) ds None) as [[z cl]|].
  - destruct X as ([A|(r & s & A & B & Z & C)] & _ & H); [discriminate|]. specialize (H _ _ D IN). cbn [z_of] in H. subst z. destruct s as [[c' z']|]; [|cbn [z_of] in H; unfold zENV_OBSTACLE in H; lra]. pose proof A as A0. apply Q in A. destruct A as [(e' & i' & A & -> & ->)|(p' & m' & e' & i' & _ & _ & _ & _ & _ & ->)]; [|cbn [z_of] in H; unfold zENV_OBSTACLE, zGOAL in H; lra].
    exists e', i', c'. split; [exact A|]. split; [exact B|]. subst cl. reflexivity.
  - destruct X as [_ X]. rewrite (X _ _ D) in IN. discriminate.
Qed.

(** An arena with a player whose goal is a pose cannot be drawn at all. *)
Lemma C98_pose_goal_refuted_pf : forall models obstacles missions p polygon (buffer : vec -> vec -> R -> polygon) to_shape gp tol,
  In (p, mkMission true (fun t => bind (get_plottable_geometry buffer (PoseGoal gp tol) t) (fun x => Ok (to_shape x)))) missions -> exists e, plot_arena models obstacles missions = Err e.
Proof.
  intros models obstacles missions p polygon buffer to_shape gp tol I. unfold plot_arena. destruct (draw_obstacles obstacles) as [d|e]; [cbn [bind]|exists e; reflexivity].
  assert (X : exists e, draw_goals models missions = Err e).
  { induction missions as [|[q m] r IH]; [contradiction|]. cbn [draw_goals]. destruct I as [E|I].
    - injection E as -> ->. cbn [mi_static mi_geometry]. destruct (agetE String.eqb models p); [cbn|]; eexists; reflexivity.
    - destruct (IH I) as [e X]. destruct (mi_static m); [|eauto]. destruct (agetE String.eqb models q); [cbn [bind]|eexists; reflexivity]. rewrite X. destruct (bind (mi_geometry m 0) _) as [x|[]]; eexists; reflexivity. }
  destruct X as [e ->]. exists e. reflexivity.
Qed.

(** The goal of a player that moves is drawn where it is at the time of the last frame; a
    static one is not drawn again. *)
Lemma C98_moving_goal_pf : forall models missions name m col ts t e i, agetE String.eqb missions name = Ok m -> mi_static m = false -> agetE String.eqb models name = Ok col ->
  (forall x, In x ts -> exists e i, mi_geometry m x = Ok (Polygon e i)) -> mi_geometry m t = Ok (Polygon e i) ->
  draw_goal_frames models missions name None (ts ++ [t]) = Ok (Some (Fill col e)).
Proof.
  intros models missions name m col ts t e i M S C H G.
  assert (X : forall b, b = None \/ (exists x, b = Some (Fill col x)) -> draw_goal_frames models missions name b (ts ++ [t]) = Ok (Some (Fill col e))); [|apply X; left; reflexivity].
  induction ts as [|a ts IH]; intros b B; cbn [app draw_goal_frames]; unfold plot_timevarying_goals; rewrite M; cbn [bind]; rewrite S, C; cbn [bind].
  - rewrite G. cbn [bind]. destruct B as [->|(x & ->)]; reflexivity.
  - destruct (H a (or_introl eq_refl)) as (e' & i' & ->). cbn [bind]. destruct B as [->|(x & ->)]; cbn [set_xy bind]; (apply IH; [intros y Y; apply H; right; exact Y|right; eexists; reflexivity]).
Qed.

Lemma C98_static_goal_pf : forall models missions name m ts, agetE String.eqb missions name = Ok m -> mi_static m = true -> draw_goal_frames models missions name None ts = Ok None /\
  (forall box, ts <> [] -> draw_goal_frames models missions name box ts = Ok None).
Proof.
  intros models missions name m ts M S. assert (N : draw_goal_frames models missions name None ts = Ok None).
  { induction ts as [|t ts IH]; [reflexivity|]. cbn [draw_goal_frames]. unfold plot_timevarying_goals. rewrite M. cbn [bind]. rewrite S. cbn [bind]. exact IH. }
  split; [exact N|]. intros box T. destruct ts as [|t ts]; [contradiction|]. rewrite <- N. cbn [draw_goal_frames]. unfold plot_timevarying_goals. rewrite M. cbn [bind]. rewrite S. reflexivity.
Qed.

(** Trajectories that are given from the first frame on: the drawing is that of the last
    frame with trajectories that can be drawn. *)
Lemma C98_trajectories_partial_pf : forall models p c e0 es e, agetE String.eqb models p = Ok c -> drawable e0 -> last_drawable (e0 :: es) e -> draw_extras models p e0 es = Some (drawn e).
Proof.
  intros models p c e0 es e M D L. unfold draw_extras. rewrite (first_extra_ok models p c e0 M), (proj2 (drawable_iff e0) D).
  assert (F : forall es a, fold_left (next_extra models p) es (Some a) = Some (fold_left (fun a e => if drawable_b e then drawn e else a) es a)).
  { clear -M. induction es as [|x es IH]; intro a; [reflexivity|]. cbn [fold_left]. rewrite (next_extra_ok models p c a x M). apply IH. }
  rewrite F. f_equal. remember (e0 :: es) as all eqn:A. revert es A. induction L as [es' e D'|es' e e' N L IH]; intros es A.
  - destruct es' as [|y es']; [injection A as <- <-; reflexivity|]. injection A as -> <-. rewrite fold_left_app. cbn [fold_left]. rewrite (proj2 (drawable_iff e) D'). reflexivity.
  - destruct es' as [|y es']; [injection A as <- <-; contradiction|]. injection A as -> <-. rewrite fold_left_app. cbn [fold_left]. destruct (drawable_b e') eqn:B; [apply drawable_iff in B; contradiction|]. apply IH. reflexivity.
Qed.

(** Trajectories that are first given later are never drawn. *)
Lemma C98_late_refuted_pf : forall models p c e0 es, agetE String.eqb models p = Ok c -> ~ drawable e0 -> draw_extras models p e0 es = None.
Proof.
  intros models p c e0 es M N. unfold draw_extras. rewrite (first_extra_ok models p c e0 M). destruct (drawable_b e0) eqn:B; [apply drawable_iff in B; contradiction|].
  induction es as [|e es IH]; [reflexivity|]. cbn [fold_left]. destruct e as [|l|]; try exact IH. destruct l; exact IH.
Qed.

(** Trajectories that are not given any more stay in the drawing. *)
Lemma C98_stale_refuted_pf : forall models p c e0 n, agetE String.eqb models p = Ok c -> drawable e0 -> draw_extras models p e0 (repeat NoExtra n) = Some (drawn e0).
Proof.
  intros models p c e0 n M D. apply (C98_trajectories_partial_pf models p c e0 _ e0 M D). assert (N : ~ drawable NoExtra) by (intros (l & E & _); discriminate).
  induction n as [|n IH]; [exact (ld_last [] e0 D)|]. replace (e0 :: repeat NoExtra (S n)) with ((e0 :: repeat NoExtra n) ++ [NoExtra]); [exact (ld_skip _ _ _ N IH)|]. cbn [app repeat]. f_equal. clear. induction n as [|n IH]; [reflexivity|]. cbn [repeat app]. f_equal. exact IH.
Qed.

(** The log of a player in the current figure: one plot for each field of the states and of
    the commands, one below the other, with the values of the field at their times; nothing
    else changes. *)
Lemma C99_player_pf : forall T V (s : pyplot T V) f states commands sf cf, py_current T V s = Some f -> has_fields T V states sf -> has_fields T V commands cf ->
  exists s' new, plot_player_log T V (states, commands) (Some f) s = Ok s' /\ axes_of T V s' f = axes_of T V s f ++ new /\ (forall f', f' <> f -> axes_of T V s' f' = axes_of T V s f') /\ plots_of T V states commands sf cf new.
Proof. intros T V s f states commands sf cf C S F. destruct (player_log_ok T V s f states commands sf cf C S F) as (s' & new & E & _ & X). exists s', new. auto. Qed.

(** The logs of several players: those of the players asked for, in the order of the log. *)
Lemma C99_players_pf : forall T V (s : pyplot T V) f sim_log only, py_current T V s = Some f ->
  (forall p l, In (p, l) sim_log -> exists sf cf, has_fields T V (fst l) sf /\ has_fields T V (snd l) cf) ->
  let chosen := filter (fun e => match only with Some o => existsb (String.eqb (fst e)) o | None => true end) sim_log in
  exists s' news, plot_players_logs T V sim_log (Some f) only s = Ok s' /\ axes_of T V s' f = axes_of T V s f ++ concat news /\ (forall f', f' <> f -> axes_of T V s' f' = axes_of T V s f') /\
    Forall2 (fun e new => exists sf cf, has_fields T V (fst (snd e)) sf /\ has_fields T V (snd (snd e)) cf /\ plots_of T V (fst (snd e)) (snd (snd e)) sf cf new) chosen news.
Proof.
  intros T V s f sim_log only C H. cbv zeta. unfold plot_players_logs. cbn [figure_or]. revert s C. induction sim_log as [|[p [st cm]] r IH]; intros s C; cbn [fold_left filter].
  - exists s, []. cbn [concat]. rewrite app_nil_r. split; [reflexivity|]. split; [reflexivity|]. split; [reflexivity|constructor].
  - specialize (IH (fun p l I => H p l (or_intror I))). destruct (H p (st, cm) (or_introl eq_refl)) as (sf & cf & S & F). cbn [fst snd] in S, F. destruct (player_log_ok T V s f st cm sf cf C S F) as (s1 & new & E & C1 & A & O & P). cbn [fst snd bind].
    assert (Y : exists s' news, fold_left (fun acc e => bind acc (fun s => match only with Some only => if existsb (String.eqb (fst e)) only then plot_player_log T V (snd e) (Some f) s else Ok s | None => plot_player_log T V (snd e) (Some f) s end)) r (Ok s1) = Ok s' /\ axes_of T V s' f = axes_of T V s f ++ concat news /\ (forall f', f' <> f -> axes_of T V s' f' = axes_of T V s f') /\
      Forall2 (fun e new => exists sf cf, has_fields T V (fst (snd e)) sf /\ has_fields T V (snd (snd e)) cf /\ plots_of T V (fst (snd e)) (snd (snd e)) sf cf new) ((p, (st, cm)) :: filter (fun e => match only with Some o => existsb (String.eqb (fst e)) o | None => true end) r) news).
    { destruct (IH s1 C1) as (s' & news & E' & A' & O' & P'). exists s', (new :: news). split; [exact E'|]. split; [cbn [concat]; rewrite A', A, app_assoc; reflexivity|]. split; [intros f' X; rewrite O', O by exact X; reflexivity|]. constructor; [|exact P']. exists sf, cf. auto. }
    destruct only as [o|].
    + destruct (existsb (String.eqb p) o); [rewrite E; exact Y|exact (IH s C)].
    + rewrite E. exact Y.
Qed.

(** Without a figure the current one is used, after making axes in an empty one. *)
Lemma C99_default_figure_pf : forall T V (s : pyplot T V) f log, py_current T V s = Some f -> axes_of T V s f <> [] -> plot_player_log T V log None s = plot_player_log T V log (Some f) s.
Proof. intros T V s f log C N. unfold plot_player_log. cbn [figure_or]. unfold gca. rewrite C. destruct (axes_of T V s f) eqn:A; [contradiction|]. reflexivity. Qed.

(** In a figure that is not the current one only empty plots are made: the curves go to the
    current figure. *)
Lemma C99_other_figure_refuted_pf : forall T V (s : pyplot T V) f g states commands sf cf, py_current T V s = Some g -> g <> f -> has_fields T V states sf -> has_fields T V commands cf ->
  exists s' new, plot_player_log T V (states, commands) (Some f) s = Ok s' /\ axes_of T V s' f = axes_of T V s f ++ new /\ length new = (length sf + length cf)%nat /\ forall a, In a new -> ax_curves T V a = [].
Proof.
  intros T V s f g states commands sf cf C N S F. unfold plot_player_log. cbn [figure_or]. rewrite (fields_ok T V states sf S), (fields_ok T V commands cf F). cbn [bind].
  destruct (plot_fields_other T V f g (length sf + length cf) false states sf N) with (offset := 0%nat) (s := s) as (s1 & n1 & E1 & C1 & A1 & L1 & N1); [intros field I; destruct (column_ok T V states sf field S I) as (p & E & _); eauto|exact C|]. rewrite E1. cbn [bind].
  destruct (plot_fields_other T V f g (length sf + length cf) true commands cf N) with (offset := length sf) (s := s1) as (s2 & n2 & E2 & C2 & A2 & L2 & N2); [intros field I; destruct (column_ok T V commands cf field F I) as (p & E & _); eauto|exact C1|].
  exists s2, (n1 ++ n2). split; [exact E2|]. split; [rewrite A2, A1, app_assoc; reflexivity|]. split; [rewrite app_length, L1, L2; reflexivity|]. intros a I. apply in_app_iff in I. destruct I; auto.
Qed.

(** A log without states or without commands is an error. *)
Lemma C99_empty_pf : forall T V (s : pyplot T V) fig states commands, (states = [] \/ (exists sf, has_fields T V states sf) /\ commands = []) -> plot_player_log T V (states, commands) fig s = Err PyIndexError.
Proof.
  intros T V s fig states commands H. unfold plot_player_log. destruct (figure_or T V fig s) as [f s']. destruct H as [->|((sf & S) & ->)]; [reflexivity|]. rewrite (fields_ok T V states sf S). reflexivity.
Qed.
