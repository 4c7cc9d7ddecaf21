(* Generated from tools/Body.src by tools/gen_props.py. *)
(** Properties of the bodies of vehicles and robots. *)
From Coq Require Import String Reals Lra Psatz List Bool ZArith Lia Arith.
From Verif Require Import Base R2 GeoModel GeoSpec GeoProofs LaneModel BodyModel BodySpec BodyProofs.
Import ListNotations.
Open Scope R_scope.

(** The outline of a vehicle is a closed box around both axles, as long as the vehicle
    says, and contains the lights, which are on its front and back sides. *)
Lemma C84_outline_pf : forall g, In (g_type g) vehicle_types -> 0 <= g_w_half g -> 0 <= g_lf g -> 0 <= g_lr g ->
  exists x0 x1 y, outline g = Ok (box_ring x0 x1 y) /\ vlength g = Ok (x1 - x0) /\ x0 < - g_lr g /\ g_lf g <= x1 /\ g_w_half g < y /\
    exists bl br fl fr, lights_position g = Ok [("back_left", (x0, bl)); ("back_right", (x0, br)); ("front_left", (x1, fl)); ("front_right", (x1, fr))]%string /\
      forall l, In l [bl; br; fl; fr] -> - y <= l <= y.
Proof.
  intros g H W F R. destruct (outline_box g H) as (t & r & f & E & T & FE & B & O). assert (F0 : 0 <= f) by (rewrite FE; destruct (four _); lra). do 3 eexists. split; [exact O|]. unfold vlength. rewrite B. cbn [bind fst snd]. split; [unfold wheelbase; f_equal; ring|]. split; [lra|]. split; [lra|]. split; [lra|].
  unfold lights_position. rewrite E, B. cbn [bind fst snd]. do 4 eexists. split; [reflexivity|]. intros l [<-|[<-|[<-|[<-|[]]]]]; lra.
Qed.

(** The left lights are to the left of the right ones, if the axle is longer than a tyre
    is wide. *)
Lemma C84_lights_pf : forall g l t r, lights_position g = Ok l -> wheel_shape g = Ok (t, r) -> t < g_w_half g ->
  (forall bl br, In ("back_left"%string, bl) l -> In ("back_right"%string, br) l -> snd br < 0 < snd bl) /\ (forall fl fr, In ("front_left"%string, fl) l -> In ("front_right"%string, fr) l -> snd fr < 0 < snd fl).
Proof.
  intros g l t r L E T. unfold lights_position in L. rewrite E in L. cbn [bind fst] in L. destruct (bumpers_length g) as [b|]; [|discriminate]. cbn [bind] in L. injection L as <-.
  split; intros a b' A B; (repeat (destruct A as [A|A]; [try discriminate|])); try contradiction; (repeat (destruct B as [B|B]; [try discriminate|])); try contradiction; injection A as <-; injection B as <-; cbn [snd]; lra.
Qed.

(** Another type of vehicle has no outline, wheels, lights or length. *)
Lemma C84_unknown_type_pf : forall g delta, ~ In (g_type g) vehicle_types ->
  outline g = Err ZValueError /\ vlength g = Err ZValueError /\ lights_position g = Err ZValueError /\ wheel_outline g = Err ZValueError /\ get_rotated_wheels_outlines g delta = Err ZValueError /\ forall p psi, vehicle_footprint g p psi = Err ZValueError.
Proof.
  intros g delta N. assert (E : wheel_shape g = Err ZValueError).
  { unfold wheel_shape. destruct (String.eqb_spec (g_type g) "car"); [exfalso; apply N; left; auto|]. destruct (String.eqb_spec (g_type g) "truck"); [exfalso; apply N; right; left; auto|].
    destruct (String.eqb_spec (g_type g) "motorcycle"); [exfalso; apply N; do 2 right; left; auto|]. destruct (String.eqb_spec (g_type g) "bicycle"); [exfalso; apply N; do 3 right; left; auto|]. reflexivity. }
  assert (NW : (n_wheels g =? 2)%nat || (n_wheels g =? 4)%nat = true) by (unfold n_wheels, wheels_position; destruct (four (g_type g)); reflexivity).
  unfold vehicle_footprint, outline, vlength, lights_position, get_rotated_wheels_outlines, bumpers_length, wheel_outline. rewrite E, NW. cbn [bind]. repeat (split; [reflexivity|]). reflexivity.
Qed.

(** The outline is wider than the width of the vehicle. *)
Lemma C84_width_refuted_pf : forall g, In (g_type g) vehicle_types -> exists x0 x1 y, outline g = Ok (box_ring x0 x1 y) /\ width g < y - (- y).
Proof. intros g H. destruct (outline_box g H) as (t & r & f & E & T & FE & B & O). do 3 eexists. split; [exact O|]. unfold width. lra. Qed.

(** With straight wheels every wheel is inside the outline, if the front axle is far
    enough from the centre. *)
Lemma C84_wheels_partial_pf : forall g t r, In (g_type g) vehicle_types -> 0 <= g_w_half g -> wheel_shape g = Ok (t, r) ->
  (In (g_type g) ["car"; "truck"]%string -> 2 * r <= g_lf g) -> 0 <= g_lf g -> 0 <= g_lr g ->
  exists x0 x1 y ws, outline g = Ok (box_ring x0 x1 y) /\ get_rotated_wheels_outlines g 0 = Ok ws /\
    length ws = (if existsb (String.eqb (g_type g)) ["car"; "truck"]%string then 4 else 2)%nat /\ forall wheel v, In wheel ws -> In v wheel -> in_box x0 x1 (- y) y v.
Proof.
  intros g t r H W E RF F R. destruct (outline_box g H) as (t' & r' & f & E' & T & FE & B & O). rewrite E in E'. injection E' as <- <-.
  assert (RB : r <= f). { rewrite FE. unfold four. destruct (existsb (String.eqb (g_type g)) FourWheelsTypes) eqn:X; [|lra]. apply existsb_exists in X as (k & K & X). apply String.eqb_eq in X. subst k. specialize (RF K). lra. }
  exists (- g_lr g - r * 2), (g_lf g + f), (g_w_half g + t). assert (NW : (n_wheels g =? 2)%nat || (n_wheels g =? 4)%nat = true) by (unfold n_wheels, wheels_position; destruct (four (g_type g)); reflexivity).
  unfold get_rotated_wheels_outlines, wheel_outline. rewrite NW, E. cbn [bind fst snd]. eexists. split; [exact O|]. split; [reflexivity|]. split.
  - rewrite map_length, combine_length, seq_length. unfold n_wheels. rewrite Nat.min_id. unfold wheels_position, four, FourWheelsTypes. destruct (existsb _ _); reflexivity.
  - intros wheel v I J. apply in_map_iff in I as ([i p] & <- & I). apply in_combine_r in I. replace (if (2 * i <? n_wheels g)%nat then 0 else 0) with 0 in J by (destruct (2 * i <? n_wheels g)%nat; reflexivity).
    rewrite transform_world in J. apply in_map_iff in J as (q & <- & J). unfold in_world. rewrite cos_0, sin_0.
    assert (Q : Rabs (fst q) <= r /\ Rabs (snd q) <= t) by (destruct J as [<-|[<-|[<-|[<-|[<-|[]]]]]]; cbn [fst snd]; split; apply Rabs_le; lra). destruct Q as [Q1 Q2].
    assert (P : (fst p = g_lf g \/ fst p = - g_lr g) /\ Rabs (snd p) <= g_w_half g). { unfold wheels_position in I. destruct (four (g_type g)); [destruct I as [<-|[<-|[<-|[<-|[]]]]]|destruct I as [<-|[<-|[]]]]; cbn [fst snd]; (split; [auto|apply Rabs_le; lra]). }
    destruct P as [P1 P2]. pose proof (Rle_abs (fst q)). pose proof (Rle_abs (- fst q)). pose proof (Rle_abs (snd q)). pose proof (Rle_abs (- snd q)). pose proof (Rle_abs (snd p)). pose proof (Rle_abs (- snd p)). rewrite Rabs_Ropp in *. unfold in_box. cbn [fst snd]. destruct P1 as [-> | ->]; lra.
Qed.

(** Steered wheels of a car or truck stick out. *)
Lemma C84_steered_wheels_refuted_pf : forall g delta, In (g_type g) ["car"; "truck"]%string -> 0 < delta <= PI / 2 ->
  exists x0 x1 y ws wheel v, outline g = Ok (box_ring x0 x1 y) /\ get_rotated_wheels_outlines g delta = Ok ws /\ In wheel ws /\ In v wheel /\ y < snd v.
Proof.
  intros g delta H D. assert (K : In (g_type g) vehicle_types) by (destruct H as [H|[H|[]]]; rewrite <- H; cbn; auto). destruct (outline_box g K) as (t & r & f & E & T & FE & B & O).
  assert (F : four (g_type g) = true) by (destruct H as [H|[H|[]]]; rewrite <- H; reflexivity). unfold get_rotated_wheels_outlines, wheel_outline, n_wheels, wheels_position. rewrite F, E. cbn [bind fst snd length Nat.eqb orb List.seq combine map Nat.mul Nat.add Nat.ltb Nat.leb].
  do 6 eexists. split; [exact O|]. split; [reflexivity|]. split; [left; reflexivity|]. rewrite transform_world. unfold wheel_ring. cbn [map]. split; [do 3 right; left; reflexivity|]. unfold in_world. cbn [fst snd].
  assert (C : 0 <= cos delta) by (apply cos_ge_0; lra). assert (C1 : cos delta < 1). { rewrite <- cos_0. apply cos_decreasing_1; pose proof PI_RGT_0; lra. } assert (S : 0 < sin delta) by (apply sin_gt_0; pose proof PI_RGT_0; lra). pose proof (sin2_cos2 delta) as Q. unfold Rsqr in Q.
  assert (L : 1 - cos delta <= sin delta) by nra. nra.
Qed.

(** So do the front wheels of a short car, and the wheels of the default robot. *)
Lemma C84_short_front_refuted_pf : forall g t r, In (g_type g) ["car"; "truck"]%string -> wheel_shape g = Ok (t, r) -> g_lf g < 2 * r ->
  exists x0 x1 y ws wheel v, outline g = Ok (box_ring x0 x1 y) /\ get_rotated_wheels_outlines g 0 = Ok ws /\ In wheel ws /\ In v wheel /\ x1 < fst v.
Proof.
  intros g t r H E' L. assert (K : In (g_type g) vehicle_types) by (destruct H as [H|[H|[]]]; rewrite <- H; cbn; auto). destruct (outline_box g K) as (t' & r' & f & E & T & FE & B & O). rewrite E' in E. injection E as <- <-.
  assert (F : four (g_type g) = true) by (destruct H as [H|[H|[]]]; rewrite <- H; reflexivity). unfold get_rotated_wheels_outlines, wheel_outline, n_wheels, wheels_position. rewrite F, E'. cbn [bind fst snd length Nat.eqb orb List.seq combine map Nat.mul Nat.add Nat.ltb Nat.leb].
  do 6 eexists. split; [exact O|]. split; [reflexivity|]. split; [left; reflexivity|]. rewrite transform_world. unfold wheel_ring. cbn [map]. split; [left; reflexivity|]. unfold in_world. cbn [fst snd]. rewrite cos_0, sin_0. rewrite FE, F. lra.
Qed.

Lemma C84_robot_wheels_refuted_pf : exists wheel v, In wheel (diff_drive_wheels 1 (2 / 10)) /\ In v wheel /\ 6 / 10 < vdist (0, 0) v.
Proof.
  unfold diff_drive_wheels. cbn [map]. rewrite !transform_world. unfold wheel_ring. cbn [map]. do 2 eexists. split; [right; left; reflexivity|]. split; [do 3 right; left; reflexivity|]. unfold in_world. rewrite cos_0, sin_0. unfold vdist, vnorm, vdot, vsub. cbn [fst snd].
  apply Rsqr_incrst_0; [|lra|apply sqrt_pos]. rewrite Rsqr_sqrt by nra. unfold Rsqr. lra.
Qed.

(** The wheels: of a car or truck, front left, front right, back left and back right; of a
    motorcycle or bicycle, front and back; the track of the robot is the distance of its
    wheels. *)
Lemma C84_wheel_places_pf : forall g delta, In (g_type g) vehicle_types -> exists t r,
  let ring := box_wheel t r in
  get_rotated_wheels_outlines g delta = Ok (if existsb (String.eqb (g_type g)) ["car"; "truck"]%string
    then [map (in_world (g_lf g, g_w_half g) delta) ring; map (in_world (g_lf g, - g_w_half g) delta) ring; map (in_world (- g_lr g, g_w_half g) 0) ring; map (in_world (- g_lr g, - g_w_half g) 0) ring]
    else [map (in_world (g_lf g, 0) delta) ring; map (in_world (- g_lr g, 0) 0) ring]) /\ 0 < t < r.
Proof.
  intros g delta T. unfold get_rotated_wheels_outlines, n_wheels, wheels_position, wheel_outline, wheel_shape, four, FourWheelsTypes. destruct g as [ty w lf lr]. cbn [g_type g_w_half g_lf g_lr] in *.
  destruct T as [<-|[<-|[<-|[<-|[]]]]]; [exists (1 / 10), (3 / 10)|exists (2 / 10), (4 / 10)|exists (5 / 100), (3 / 10)|exists (5 / 100), (3 / 10)]; (split; [|lra]); cbn -[in_world transform Rdiv map]; cbn [map]; rewrite !transform_world; reflexivity.
Qed.

Lemma C84_robot_wheels_pf : forall wb r, diff_drive_wheels wb r = [map (in_world (0, - (wb / 2)) 0) (box_wheel (r / 3) r); map (in_world (0, wb / 2) 0) (box_wheel (r / 3) r)].
Proof.
  intros wb r. unfold diff_drive_wheels. change wheel_ring with box_wheel. generalize (box_wheel (r / 3) r). intro ring. cbn [map]. rewrite !transform_world. replace (- wb / 2) with (- (wb / 2)) by field. reflexivity.
Qed.

(** Steering turns the front wheels in place and leaves the others. *)
Lemma C84_steering_pf : forall g delta ws o, get_rotated_wheels_outlines g delta = Ok ws -> wheel_outline g = Ok o ->
  length ws = length (wheels_position g) /\ forall i p wheel, nth_error (wheels_position g) i = Some p -> nth_error ws i = Some wheel ->
    (fst p = g_lf g -> 0 <= g_lf g -> 0 < g_lr g -> wheel = map (in_world p delta) o) /\ (fst p = - g_lr g -> 0 <= g_lf g -> 0 < g_lr g -> wheel = map (in_world p 0) o).
Proof.
  intros g delta ws o E O. assert (NW : (n_wheels g =? 2)%nat || (n_wheels g =? 4)%nat = true) by (unfold n_wheels, wheels_position; destruct (four (g_type g)); reflexivity).
  unfold get_rotated_wheels_outlines in E. rewrite NW, O in E. cbn [bind] in E. injection E as <-. split; [rewrite map_length, combine_length, seq_length; unfold n_wheels; apply Nat.min_id|].
  intros i p wheel P Wh. unfold n_wheels, wheels_position in *. destruct (four (g_type g)).
  - do 4 (destruct i as [|i]; [cbn in P, Wh; injection P as <-; injection Wh as <-; cbn [fst]; rewrite transform_world; split; intros; [try reflexivity; lra|try reflexivity; lra]|]). destruct i; discriminate.
  - do 2 (destruct i as [|i]; [cbn in P, Wh; injection P as <-; injection Wh as <-; cbn [fst]; rewrite transform_world; split; intros; [try reflexivity; lra|try reflexivity; lra]|]). destruct i; discriminate.
Qed.

(** The footprint is the outline, turned and moved with the vehicle: distances do not
    change. *)
Lemma C84_footprint_pf : forall g p psi o f, outline g = Ok o -> vehicle_footprint g p psi = Ok f ->
  f = map (in_world p psi) o /\ forall a b, vdist (in_world p psi a) (in_world p psi b) = vdist a b.
Proof.
  intros g p psi o f O E. unfold vehicle_footprint in E. rewrite O in E. cbn [bind] in E. injection E as <-. split; [apply apply_world|]. intros a b. apply world_dist.
Qed.

(** The four parts of the mesh of a vehicle: at relative position [a] between back (-1) and
    front (1) and [b] between right (-1) and left (1), a point belongs to the part whose
    side is nearest in these terms. *)
Lemma C84_vehicle_mesh_pf : forall centroid g p psi, right_centroid centroid -> In (g_type g) vehicle_types -> 0 <= g_w_half g -> 0 <= g_lf g -> 0 <= g_lr g ->
  exists x0 x1 y right left back front, outline g = Ok (box_ring x0 x1 y) /\ x0 < x1 /\ 0 < y /\
    vehicle_mesh centroid g p psi = Ok [("right", right); ("left", left); ("back", back); ("front", front)]%string /\
    forall a b, let v := in_world p psi ((x0 + x1) / 2 + a * ((x1 - x0) / 2), b * y) in
      (in_triangle front v <-> Rabs b <= a <= 1) /\ (in_triangle back v <-> Rabs b <= - a <= 1) /\
      (in_triangle left v <-> Rabs a <= b <= 1) /\ (in_triangle right v <-> Rabs a <= - b <= 1).
Proof.
  intros centroid g p psi RC H W F R. destruct (outline_box g H) as (t & r & f & E & T & FE & B & O). assert (F0 : 0 <= f) by (rewrite FE; destruct (four _); lra).
  set (x0 := - g_lr g - r * 2) in *. set (x1 := g_lf g + f) in *. set (y := g_w_half g + t) in *. assert (X : x0 < x1) by (unfold x0, x1; lra). assert (Y : 0 < y) by (unfold y; lra).
  set (c := ((x0 + x1) / 2, 0)).
  exists x0, x1, y, (in_world p psi c, in_world p psi (x0, - y), in_world p psi (x1, - y)), (in_world p psi c, in_world p psi (x0, y), in_world p psi (x1, y)), (in_world p psi c, in_world p psi (x0, - y), in_world p psi (x0, y)), (in_world p psi c, in_world p psi (x1, y), in_world p psi (x1, - y)).
  split; [exact O|]. split; [exact X|]. split; [exact Y|]. split.
  - unfold vehicle_mesh, vehicle_footprint. rewrite O. cbn [bind]. rewrite apply_world. unfold mesh_of. rewrite (RC _ _ (world_central p psi _ _ (box_central x0 x1 y))). fold c. unfold box_ring. cbn [map removelast item nth_error bind forallb snd].
    rewrite !valid_world; [reflexivity|..]; unfold c, vcross, vsub; cbn [fst snd]; nra.
  - intros a b v. unfold v, c. rewrite !world_triangle. split; [apply tri_front; assumption|]. split; [apply tri_back; assumption|]. split; [apply tri_left; assumption|apply tri_right; assumption].
Qed.

(** So the parts cover the vehicle, and nothing else. *)
Lemma C84_mesh_covers_pf : forall centroid g p psi m, right_centroid centroid -> In (g_type g) vehicle_types -> 0 <= g_w_half g -> 0 <= g_lf g -> 0 <= g_lr g -> vehicle_mesh centroid g p psi = Ok m ->
  exists x0 x1 y, outline g = Ok (box_ring x0 x1 y) /\ forall v, in_box x0 x1 (- y) y v <-> exists name t, In (name, t) m /\ in_triangle t (in_world p psi v).
Proof.
  intros centroid g p psi m RC H W F R M. destruct (C84_vehicle_mesh_pf centroid g p psi RC H W F R) as (x0 & x1 & y & rt & lt & bk & ft & O & X & Y & M' & Q). rewrite M in M'. injection M' as ->. exists x0, x1, y. split; [exact O|]. intros [vx vy].
  set (a := (vx - (x0 + x1) / 2) / ((x1 - x0) / 2)). set (b := vy / y). assert (EA : vx = (x0 + x1) / 2 + a * ((x1 - x0) / 2)) by (unfold a; field; lra). assert (EB : vy = b * y) by (unfold b; field; lra).
  destruct (Q a b) as (Qf & Qb & Ql & Qr). rewrite <- EA, <- EB in *. unfold in_box. cbn [fst snd]. split.
  - intros [V1 V2]. assert (A : -1 <= a <= 1) by (split; apply (Rmult_le_reg_r ((x1 - x0) / 2)); lra). assert (BB : -1 <= b <= 1) by (split; apply (Rmult_le_reg_r y); lra).
    destruct (Rle_dec (Rabs b) (Rabs a)) as [L|L].
    + destruct (Rle_dec 0 a) as [L0|L0].
      * rewrite (Rabs_pos_eq a) in L by lra. exists "front"%string, ft. split; [do 3 right; left; reflexivity|]. apply Qf. lra.
      * rewrite (Rabs_left a) in L by lra. exists "back"%string, bk. split; [do 2 right; left; reflexivity|]. apply Qb. lra.
    + destruct (Rle_dec 0 b) as [L0|L0].
      * rewrite (Rabs_pos_eq b) in L by lra. exists "left"%string, lt. split; [right; left; reflexivity|]. apply Ql. lra.
      * rewrite (Rabs_left b) in L by lra. exists "right"%string, rt. split; [left; reflexivity|]. apply Qr. lra.
  - intros (name & t & I & Tr). pose proof (Rle_abs a). pose proof (Rle_abs (- a)). pose proof (Rle_abs b). pose proof (Rle_abs (- b)). rewrite Rabs_Ropp in *.
    assert (AB : -1 <= a <= 1 /\ -1 <= b <= 1). { destruct I as [[= <- <-]|[[= <- <-]|[[= <- <-]|[[= <- <-]|[]]]]]; [apply Qr in Tr|apply Ql in Tr|apply Qb in Tr|apply Qf in Tr]; lra. }
    rewrite EA, EB. split; nra.
Qed.

(** The mesh of a differential drive robot only covers a quarter of it: it takes the first
    four vertices of a polygon with 64 vertices for the corners of a box. *)
Lemma C84_robot_mesh_refuted_pf : forall centroid quad r p psi, right_centroid centroid -> (3 <= quad)%nat -> 0 < r ->
  exists m, diff_drive_mesh centroid quad r p psi = Ok m /\
    (forall name t v, In (name, t) m -> in_triangle t (in_world p psi v) -> 0 <= fst v /\ snd v <= 0) /\
    (forall v, In v (diff_drive_footprint quad r p psi) -> vdist v p = r) /\ In (in_world p psi (- r, 0)) (diff_drive_footprint quad r p psi).
Proof.
  intros centroid quad r p psi RC Q R. pose proof PI_RGT_0 as PP. assert (QP : 3 <= INR quad) by (apply (le_INR 3) in Q; cbn [INR] in Q; lra). set (h := PI / (2 * INR quad)).
  assert (HP : 0 < h) by (apply Rdiv_lt_0_compat; lra). assert (H3 : 3 * h <= PI / 2). { unfold h. replace (3 * (PI / (2 * INR quad))) with (PI / 2 * (3 / INR quad)) by (field; lra). assert (3 / INR quad <= 1) by (apply Rmult_le_reg_r with (INR quad); [lra|]; unfold Rdiv; rewrite Rmult_assoc, Rinv_l by lra; lra). nra. }
  set (v := cvertex quad r). assert (VP : p = in_world p psi (0, 0)) by (destruct p; unfold in_world; cbn [fst snd]; f_equal; ring).
  unfold diff_drive_mesh, diff_drive_footprint. rewrite apply_world. unfold mesh_of. rewrite (RC _ _ (world_central p psi _ _ (circle_central quad r ltac:(lia)))).
  assert (N : forall k, (k < 4)%nat -> item (removelast (map (in_world p psi) (circle quad r))) k = Ok (in_world p psi (v k))).
  { intros k K. rewrite circle_ring. replace (4 * quad + 1)%nat with (S (4 * quad)) by lia. rewrite seq_S, !map_app. cbn [map]. rewrite removelast_last. unfold item. rewrite (map_nth_error (in_world p psi) k (map (cvertex quad r) (List.seq 0 (4 * quad))) (d := v k)); [reflexivity|]. apply map_nth_error. rewrite (nth_error_nth' _ 0%nat) by (rewrite seq_length; lia). rewrite seq_nth by lia. reflexivity. }
  rewrite (N 0%nat), (N 1%nat), (N 2%nat), (N 3%nat) by lia. cbn [bind forallb snd].
  assert (CR : forall i j, vcross (vsub (v i) (0, 0)) (vsub (v j) (0, 0)) = - (r * r) * sin ((INR j - INR i) * h)).
  { intros i j. unfold v, cvertex, vcross, vsub. cbn [fst snd]. fold h. replace ((INR j - INR i) * h) with (INR j * h - INR i * h) by ring. rewrite sin_minus. ring. }
  assert (VT : forall i j, 0 < (INR j - INR i) * h < PI -> valid_triangle (in_world p psi (0, 0), in_world p psi (v i), in_world p psi (v j)) = true).
  { intros i j D. apply valid_world. rewrite CR. pose proof (sin_gt_0 _ (proj1 D) (proj2 D)). assert (0 < r * r) by nra. nra. }
  rewrite !VT by (cbn [INR]; lra). cbn [andb]. eexists. split; [reflexivity|]. 
  assert (V4 : forall k, (k < 4)%nat -> 0 <= fst (v k) /\ snd (v k) <= 0).
  { intros k K. unfold v, cvertex. cbn [fst snd]. fold h. assert (A : 0 <= INR k * h <= PI / 2). { pose proof (pos_INR k). assert (INR k <= 3) by (assert (K' : (k <= 3)%nat) by lia; apply le_INR in K'; cbn [INR] in K'; lra). split; [nra|]. assert (INR k * h <= 3 * h) by nra. lra. }
    assert (0 <= cos (INR k * h)) by (apply cos_ge_0; lra). assert (0 <= sin (INR k * h)) by (apply sin_ge_0; lra). split; nra. }
  split; [|split].
  - intros name t q I Tr. assert (G : exists i j, (i < 4)%nat /\ (j < 4)%nat /\ t = (in_world p psi (0, 0), in_world p psi (v i), in_world p psi (v j))) by (destruct I as [[= <- <-]|[[= <- <-]|[[= <- <-]|[[= <- <-]|[]]]]]; do 2 eexists; (split; [|split; [|reflexivity]]); lia).
    destruct G as (i & j & I4 & J4 & ->). apply world_triangle in Tr as (u & w & z & U & W & Z & S & ->). destruct (V4 i I4), (V4 j J4). unfold vadd, vscale. cbn [fst snd]. split; nra.
  - intros q I. apply in_map_iff in I as (a & <- & I). rewrite VP at 2. rewrite world_dist. rewrite circle_ring in I. apply in_map_iff in I as (k & <- & _). unfold cvertex, vdist, vnorm, vdot, vsub. cbn [fst snd]. fold h. pose proof (sin2_cos2 (INR k * h)) as T. unfold Rsqr in T.
    replace ((r * cos (INR k * h) - 0) * (r * cos (INR k * h) - 0) + (- (r * sin (INR k * h)) - 0) * (- (r * sin (INR k * h)) - 0)) with (r * r * (sin (INR k * h) * sin (INR k * h) + cos (INR k * h) * cos (INR k * h))) by ring. rewrite T, Rmult_1_r. apply sqrt_square. lra.
  - apply in_map. rewrite circle_ring. replace (- r, 0) with (cvertex quad r (2 * quad)); [apply in_map, in_seq; lia|]. unfold cvertex. rewrite mult_INR. replace (INR 2 * INR quad * (PI / (2 * INR quad))) with PI by (cbn [INR]; field; lra). rewrite cos_PI, sin_PI. f_equal; ring.
Qed.

(** The mean of the vertices is a centroid in this sense. *)
Definition mean_centroid (ring : list vec) : vec :=
  let o := removelast ring in vscale (1 / INR (length o)) (fold_right vadd (0, 0) o).

Lemma sum_reflect c l : fold_right vadd (0, 0) (l ++ map (reflect c) l) = vscale (2 * INR (length l)) c.
Proof.
  assert (A : forall l m, fold_right vadd (0, 0) (l ++ m) = vadd (fold_right vadd (0, 0) l) (fold_right vadd (0, 0) m)).
  { intros l' m. induction l' as [|x l' IH]; [cbn [app fold_right]; destruct (fold_right vadd (0, 0) m); unfold vadd; cbn [fst snd]; f_equal; ring|]. cbn [app fold_right]. rewrite IH. unfold vadd. cbn [fst snd]. f_equal; ring. }
  rewrite A. induction l as [|x l IH].
  - destruct c. unfold vadd, vscale. cbn. f_equal; ring.
  - cbn [map fold_right length]. rewrite S_INR. destruct c as [c1 c2]. unfold vadd, vscale, reflect in *. cbn [fst snd] in *. injection IH as IH1 IH2. f_equal; lra.
Qed.

Lemma mean_right : right_centroid mean_centroid.
Proof.
  intros ring c (v & h & ->). unfold mean_centroid. rewrite app_assoc, removelast_last, sum_reflect. set (n := length (v :: h)). assert (L : length ((v :: h) ++ map (reflect c) (v :: h)) = (2 * n)%nat) by (rewrite app_length, map_length; unfold n; lia). rewrite L, mult_INR.
  assert (0 < INR n) by (apply lt_0_INR; unfold n; cbn; lia). destruct c. unfold vscale. cbn [fst snd INR]. f_equal; field; lra.
Qed.

Definition default_car : vehicle_geometry := mkVG "car" (8 / 10) (12 / 10) (12 / 10).
