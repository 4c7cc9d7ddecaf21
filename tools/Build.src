(** Construction of models, and what every model offers. *)
From Coq Require Import String Reals List Bool Lra Lia.
From Verif Require Import Base R2 GeoModel DataModel DataSpec LaneModel BodyModel BodySpec BodyProofs BodyMain DynModel DrawModel BuildModel BuildSpec.
Import ListNotations.
Open Scope R_scope.
Import LaneModel.
(* BODY *)

(** ** C114  Parameters *)

Lemma ltb_true a b : LaneModel.ltb a b = true <-> a < b.
Proof. unfold LaneModel.ltb. destruct (Rlt_dec a b); split; intro; try lra; try reflexivity; discriminate. Qed.

Lemma ltb_false a b : LaneModel.ltb a b = false <-> ~ a < b.
Proof. rewrite <- ltb_true. destruct (LaneModel.ltb a b); split; intro; try congruence; try (intro; congruence); exfalso; auto. Qed.

Lemma assert_cases {A} c (k : result A) : (c = true /\ assert_then c k = k) \/ (c = false /\ assert_then c k = Err PyAssertionError).
Proof. destruct c; [left|right]; split; reflexivity. Qed.

Definition checks (p : params) : list bool := (map ordered (ranges p) ++ map (LaneModel.ltb 0) (maxima p))%list.

Lemma proper_checks p : proper p <-> forallb (fun b => b) (checks p) = true.
Proof.
  unfold proper, checks. rewrite forallb_app, andb_true_iff, !forallb_forall. split.
  - intros [A B]. split; intros b I; apply in_map_iff in I; destruct I as (y & <- & I).
    + destruct y as [lo hi]. apply ltb_true. exact (A _ _ I).
    + apply ltb_true, B, I.
  - intros [A B]. split.
    + intros lo hi I. apply ltb_true, (A (ordered (lo, hi))), in_map, I.
    + intros d I. apply ltb_true, B, in_map, I.
Qed.

Lemma build_checks p : build p = if forallb (fun b => b) (checks p) then Ok p else Err PyAssertionError.
Proof.
  destruct p; unfold build, model_post_init, checks; cbn [ranges maxima map app forallb];
    repeat match goal with |- context [assert_then ?c _] => destruct c; cbn [assert_then andb] end; try reflexivity;
    repeat match goal with |- context [?c && _] => destruct c; cbn [andb] end; try reflexivity.
Qed.

(** A parameter object is built exactly if every range goes from a smaller to a larger
    number and every largest value is positive; AssertionError otherwise.  So a parameter
    object in use always has proper limits. *)
Theorem C114_parameters : forall p, (proper p -> build p = Ok p) /\ (~ proper p -> build p = Err PyAssertionError).
Proof.
  intros p. rewrite proper_checks, build_checks. destruct (forallb (fun b => b) (checks p)); split; intro H; try reflexivity; try congruence; exfalso; apply H; reflexivity.
Qed.

Theorem C114_built : forall p p', build p = Ok p' -> p' = p /\ proper p.
Proof.
  intros p p'. rewrite proper_checks, build_checks. destruct (forallb (fun b => b) (checks p)); [|discriminate]. intros [= <-]. split; reflexivity.
Qed.

(** Speeds in other units: metres per second and kilometres per hour are converted
    exactly, miles per hour to four parts in a million. *)
Theorem C114_units : forall v, 1000 * ms2kmh v = 3600 * v /\ 3600 * kmh2ms v = 1000 * v /\ ms2kmh (kmh2ms v) = v /\ kmh2ms (ms2kmh v) = v /\
  Rabs (ms2mph v - v * 3600 / (1609344 / 1000)) <= 4 / 1000000 * Rabs v.
Proof.
  intro v. unfold ms2kmh, kmh2ms, ms2mph. repeat split; try lra.
  replace (v * (223694 / 100000) - v * 3600 / (1609344 / 1000)) with ((223694 / 100000 - 3600 * 1000 / 1609344) * v) by lra.
  rewrite Rabs_mult. apply Rmult_le_compat_r; [apply Rabs_pos|]. rewrite Rabs_right; lra.
Qed.

Lemma kmh v : 3600 * kmh2ms v = 1000 * v.
Proof. unfold kmh2ms. lra. Qed.

Lemma build_ok p : proper p -> build p = Ok p.
Proof. apply C114_parameters_pf. Qed.

Ltac prove_proper := split; [intros lo hi I; cbn [ranges In] in I; repeat (destruct I as [[= <- <-]|I]); [..|destruct I]; unfold kmh2ms, deg2rad; try pose proof PI_RGT_0; lra
  | intros d I; cbn [maxima In] in I; repeat (destruct I as [<-|I]); [..|destruct I]; try pose proof PI_RGT_0; lra].

(** The default parameters exist.  Their limits: *)
Theorem C114_vehicles :
  (exists vx, vp_default_car = Ok (PVehicle vx (-8, 5) 1 (1 / 2)) /\ in_kmh vx (-10) 130) /\
  (exists vx, vp_default_truck = Ok (PVehicle vx (-6, 7 / 2) 1 (1 / 2)) /\ in_kmh vx (-10) 90) /\
  (exists vx, vp_default_bicycle = Ok (PVehicle vx (-4, 3) 1 (1 / 2)) /\ in_kmh vx (-1) 50).
Proof.
  assert (H : 5 / 10 = 1 / 2) by lra. assert (H' : 35 / 10 = 7 / 2) by lra.
  unfold vp_default_car, vp_default_truck, vp_default_bicycle. rewrite H, H'.
  repeat split; eexists; (split; [apply build_ok; prove_proper|split; apply kmh]).
Qed.

Theorem C114_others :
  (exists vx, ped_params_default = Ok (PPedestrian vx (-3, 5) PI) /\ in_kmh vx (-5) 20) /\
  (dd_params_default (-5, 5) = Ok (PDiffDrive (0, 1) (0, 1) (-5, 5))) /\
  (exists vx, sc_params_default = Ok (PSpacecraft vx (-10, 10) (- 2 * PI, 2 * PI)) /\ in_kmh vx (-50) 50) /\
  (exists vx d dd, ro_params_default = Ok (PRocket vx (-1, 1) 2 (1 / 100) (0, 2) d dd) /\ in_kmh vx (- (72 / 10)) (72 / 10) /\ in_degrees d 60 /\ in_degrees dd 20) /\
  (exists vx d dd, ss_params_default = Ok (PSpaceship vx (-1, 1) 2 (1 / 100) (-2, 2) d dd) /\ in_kmh vx (-10) 10 /\ in_degrees d 60 /\ in_degrees dd 45).
Proof.
  assert (DEG : forall d, in_degrees (- deg2rad d, deg2rad d) d) by (intro d; unfold deg2rad; split; cbn [fst snd]; [lra|reflexivity]).
  split; [eexists; split; [apply build_ok; prove_proper|split; apply kmh]|]. split; [apply build_ok; prove_proper|].
  split; [eexists; split; [apply build_ok; prove_proper|split; apply kmh]|].
  split; eexists _, _, _; (split; [apply build_ok; prove_proper|]); (split; [split; apply kmh|]); split; apply DEG.
Qed.

(** The constants in the statements on dynamics (C51, C52, C57-C59, C81-C83) are these
    defaults. *)
Theorem C114_constants :
  (forall vpr res, In (vpr, res) [(vp_rcar, vp_default_car); (vp_rtruck, vp_default_truck); (vp_rbicycle, vp_default_bicycle)] ->
     exists vx acc, res = Ok (PVehicle vx acc (vp_dmax vpr) (vp_ddmax vpr)) /\ same_limits vx acc (vp_m vpr)) /\
  (exists vx acc, ped_params_default = Ok (PPedestrian vx acc (pp_dtheta DynModel.pp_default)) /\ same_limits vx acc (pp_m DynModel.pp_default)) /\
  (exists vx acc, ro_params_default = Ok (PRocket vx acc (rp_mv rp_default) (rp_CT rp_default) (rp_Flo rp_default, rp_Fhi rp_default) (rp_lo rp_default, rp_hi rp_default) (rp_dlo rp_default, rp_dhi rp_default))) /\
  (exists vx acc, ss_params_default = Ok (PSpaceship vx acc (rp_mv sp_default) (rp_CT sp_default) (rp_Flo sp_default, rp_Fhi sp_default) (rp_lo sp_default, rp_hi sp_default) (rp_dlo sp_default, rp_dhi sp_default))) /\
  (same_vehicle geo_default_car vg_car /\ same_vehicle geo_default_truck vg_truck /\ same_vehicle geo_default_bicycle vg_bicycle).
Proof.
  assert (H : 5 / 10 = 1 / 2) by lra. assert (H' : 35 / 10 = 7 / 2) by lra. assert (H2 : 25 / 100 = 1 / 4) by lra.
  split; [|split; [|split; [|split]]].
  - unfold vp_default_car, vp_default_truck, vp_default_bicycle. rewrite H, H'. intros vpr res [E|[E|[E|[]]]]; apply pair_equal_spec in E as [<- <-]; eexists _, _; (split; [etransitivity; [apply build_ok; prove_proper|reflexivity]|]); split; cbn; unfold kmh2ms; f_equal; lra.
  - eexists _, _. split; [etransitivity; [apply build_ok; prove_proper|reflexivity]|]. split; cbn; unfold kmh2ms; f_equal; lra.
  - eexists _, _. etransitivity; [apply build_ok; prove_proper|reflexivity].
  - eexists _, _. etransitivity; [apply build_ok; prove_proper|reflexivity].
  - unfold same_vehicle, geo_default_bicycle. rewrite H2. repeat split; try (eexists; split; reflexivity).
Qed.

Example C114_ex : (exists p, build p = Ok p /\ proper p) /\ build (PVehicle (1, 1) (-1, 1) 1 1) = Err PyAssertionError /\ build (PVehicle (0, 1) (-1, 1) 1 0) = Err PyAssertionError.
Proof.
  split.
  - exists (PModel (0, 1) (0, 1)). assert (P : proper (PModel (0, 1) (0, 1))) by (split; [intros lo hi [[= <- <-]|[[= <- <-]|[]]]; lra|intros d []]). split; [apply C114_parameters; exact P|exact P].
  - split; apply C114_parameters; intros [A B].
    + pose proof (A 1 1 (or_introl eq_refl)). lra.
    + pose proof (B 0 (or_intror (or_introl eq_refl))). lra.
Qed.

(** ** C115  Where a model is *)

Lemma has_num st f r : has st f r -> getnum st f = Ok r.
Proof. unfold has, getnum. intros ->. reflexivity. Qed.

Lemma pose_ok m p psi : stands m p psi -> get_pose m = Ok (SE2_from_translation_angle p psi).
Proof. intros (X & Y & P). unfold get_pose. rewrite (has_num _ _ _ X), (has_num _ _ _ Y), (has_num _ _ _ P). cbn [bind]. destruct p; reflexivity. Qed.

(** The pose maps the coordinates of the body to those of the world. *)
Theorem C115_pose : forall m p psi, stands m p psi -> exists q, get_pose m = Ok q /\ forall v, SE2_apply_T2 q v = in_world p psi v.
Proof.
  intros m p psi S. exists (SE2_from_translation_angle p psi). split; [apply pose_ok, S|]. intro v. unfold SE2_apply_T2, SE2_from_translation_angle, in_world. cbn [m00 m01 m02 m10 m11 m12]. f_equal; ring.
Qed.

(** The velocity in the world is the one in the body, turned with it. *)
Theorem C115_velocity : forall k w l st psi v om, has st "psi" psi ->
  (get_velocity k w l st false = Ok (v, om) <-> exists u, get_velocity k w l st true = Ok (u, om) /\ v = in_world (0, 0) psi u).
Proof.
  intros k w l st psi v om P. apply has_num in P.
  assert (RW : forall u, rot psi u = in_world (0, 0) psi u) by (intro u; unfold rot, in_world; cbn [fst snd]; f_equal; ring).
  assert (Z : in_world (0, 0) psi (0, 0) = (0, 0)) by (unfold in_world; cbn [fst snd]; f_equal; ring).
  destruct k; cbn [get_velocity]; unfold get_full_velocity, get_vehicle_velocity; rewrite ?P;
    try (destruct (getnum st "vx"); cbn [DataModel.bind]; [|split; [discriminate|intros (u & E & _); discriminate]]);
    try (destruct (getnum st "vy"); cbn [DataModel.bind]; [|split; [discriminate|intros (u & E & _); discriminate]]);
    try (destruct (getnum st "delta"); cbn [DataModel.bind]; [|split; [discriminate|intros (u & E & _); discriminate]]);
    try (destruct (getnum st "dpsi"); cbn [DataModel.bind]; [|split; [discriminate|intros (u & E & _); discriminate]]);
    rewrite ?RW; (split; [intro E; injection E as <- <-; eexists; split; [reflexivity|]; rewrite ?Z; reflexivity|intros (u & E & ->); injection E as <- <-; rewrite ?Z; reflexivity]).
Qed.

(** The footprint is the outline, or the shape of an obstacle, put where the model is. *)
Theorem C115_footprint : forall union quad valid m p psi o, stands m p psi -> outline_as_polygon union quad (ge_body (mo_geo m)) = Ok o -> mo_kind m <> KDynObstacle ->
  valid (map (in_world p psi) o) = true -> get_footprint union quad valid m = Ok (map (in_world p psi) o).
Proof.
  intros union quad valid m p psi o S O K V. unfold get_footprint. rewrite (pose_ok _ _ _ S), O. cbn [bind]. rewrite apply_world, V. destruct (mo_kind m); try reflexivity. congruence.
Qed.

Theorem C115_obstacle : forall union quad valid m p psi, stands m p psi -> mo_kind m = KDynObstacle -> get_footprint union quad valid m = Ok (map (in_world p psi) (mo_shape m)).
Proof. intros union quad valid m p psi S K. unfold get_footprint. rewrite (pose_ok _ _ _ S), K. cbn [bind]. rewrite apply_world. reflexivity. Qed.

(** The bodies of the models are those of C84 and C113. *)
Theorem C115_outlines : forall union quad g s r h c1 c2 c3 c4 c5 t wb wr rad,
  outline_as_polygon union quad (GVehicle g c1 c2 c3 c4 c5) = BodyModel.outline g /\ outline_as_polygon union quad GPedestrian = Ok (pedestrian_outline quad) /\
  outline_as_polygon union quad (GDiffDrive t wb wr rad) = Ok (circle quad rad) /\ outline_as_polygon union quad (GSpacecraft s t) = Ok (spacecraft_outline union quad s) /\
  outline_as_polygon union quad (GRocket r t) = Ok (rocket_outline union r) /\ outline_as_polygon union quad (GSpaceship h t) = Ok (spaceship_outline union h) /\
  outline_as_polygon union quad GStatic = Err PyOther /\ outline_as_polygon union quad GObstacle = Err PyOther.
Proof. intros. repeat split. Qed.

(** The mesh of vehicles is the one of C84. *)
Theorem C115_vehicle_mesh : forall union quad valid centroid m g c1 c2 c3 c4 c5 p psi, stands m p psi -> In (mo_kind m) [KVehicle; KVehicleDyn] -> ge_body (mo_geo m) = GVehicle g c1 c2 c3 c4 c5 ->
  get_footprint union quad valid m = vehicle_footprint g p psi /\
  forall parts, vehicle_mesh centroid g p psi = Ok parts -> get_mesh union quad valid centroid m = Ok (map (fun nt => let '(c, a, b) := snd nt in (fst nt, [c; a; b; c])) parts).
Proof.
  intros union quad valid centroid m g c1 c2 c3 c4 c5 p psi S K B.
  assert (F : get_footprint union quad valid m = vehicle_footprint g p psi).
  { unfold get_footprint, vehicle_footprint. rewrite (pose_ok _ _ _ S), B. cbn [outline_as_polygon]. destruct K as [<-|[<-|[]]]; destruct (BodyModel.outline g); reflexivity. }
  split; [exact F|]. intros parts M. unfold get_mesh. rewrite F. unfold vehicle_mesh in M. destruct (vehicle_footprint g p psi) as [f|e]; cbn [bind] in M |- *; [|discriminate].
  assert (E : bind (mesh_of centroid f) (fun ts => Ok (map (fun nt => (fst nt, triangle_ring (snd nt))) ts)) = Ok (map (fun nt => let '(c, a, b) := snd nt in (fst nt, [c; a; b; c])) parts)).
  { rewrite M. cbn [bind]. f_equal. apply map_ext. intros [n [[c a] b]]. reflexivity. }
  destruct K as [<-|[<-|[]]]; exact E.
Qed.

(** Every other model but the differential drive robot has one part, the whole body. *)
Theorem C115_whole : forall union quad valid centroid m f, In (mo_kind m) [KPedestrian; KSpacecraft; KRocket; KSpaceship; KDynObstacle] -> get_footprint union quad valid m = Ok f ->
  (valid f = true -> get_mesh union quad valid centroid m = Ok [("everywhere"%string, f)]) /\ (valid f = false -> get_mesh union quad valid centroid m = Err PyAssertionError).
Proof.
  intros union quad valid centroid m f K F. unfold get_mesh. rewrite F. cbn [bind]. split; intro V; rewrite ?V;
    destruct K as [E|[E|[E|[E|[E|[]]]]]]; rewrite <- E; try reflexivity.
  exfalso. unfold get_footprint in F. rewrite <- E in F. destruct (outline_as_polygon union quad (ge_body (mo_geo m))); [|discriminate]. cbn [bind] in F. destruct (get_pose m); [|discriminate]. cbn [bind] in F. unfold assert_then in F.
  destruct (valid (apply_SE2_to_shapely_geo a a0)) eqn:V'; [|discriminate]. injection F as <-. congruence.
Qed.

Lemma world_world t a p psi v : in_world t a (in_world p psi v) = in_world (in_world t a p) (psi + a) v.
Proof. unfold in_world. cbn [fst snd]. rewrite sin_plus, cos_plus. f_equal; ring. Qed.

Lemma tri_valid t a x y z : valid_triangle (in_world t a x, in_world t a y, in_world t a z) = valid_triangle (x, y, z).
Proof.
  unfold valid_triangle. replace (vcross (vsub (in_world t a y) (in_world t a x)) (vsub (in_world t a z) (in_world t a x))) with (vcross (vsub y x) (vsub z x)); [reflexivity|].
  pose proof (sin2_cos2 a) as T. unfold Rsqr in T. unfold vcross, vsub, in_world. cbn [fst snd].
  transitivity ((sin a * sin a + cos a * cos a) * ((fst y - fst x) * (snd z - snd x) - (snd y - snd x) * (fst z - fst x))); [rewrite T; ring|ring].
Qed.

Lemma removelast_map {A B} (f : A -> B) l : removelast (map f l) = map f (removelast l).
Proof. induction l as [|x l IH]; [reflexivity|]. cbn [map removelast]. destruct l; [reflexivity|]. cbn [map] in *. rewrite IH. reflexivity. Qed.

Lemma item_map {A B} (f : A -> B) l i : item (map f l) i = match item l i with Ok x => Ok (f x) | Err e => Err e end.
Proof. unfold item. rewrite nth_error_map. destruct (nth_error l i); reflexivity. Qed.

Lemma mesh_world centroid t a f : (forall r, r <> [] -> centroid (map (in_world t a) r) = in_world t a (centroid r)) ->
  carried (map (fun nt => let '(c, x, y) := snd nt in (fst nt, (in_world t a c, in_world t a x, in_world t a y)))) (mesh_of centroid f) (mesh_of centroid (map (in_world t a) f)).
Proof.
  intro C. unfold mesh_of. rewrite removelast_map, !item_map. destruct (item (removelast f) 0) as [v0|e] eqn:E0; cbn [bind carried]; [|reflexivity]. rewrite C by (intros ->; cbn in E0; discriminate).
  destruct (item (removelast f) 1) as [v1|e]; cbn [bind carried]; [|reflexivity]. destruct (item (removelast f) 2) as [v2|e]; cbn [bind carried]; [|reflexivity]. destruct (item (removelast f) 3) as [v3|e]; cbn [bind carried]; [|reflexivity].
  cbn [forallb snd]. rewrite !tri_valid.
  destruct (valid_triangle (centroid f, v0, v3) && (valid_triangle (centroid f, v1, v2) && (valid_triangle (centroid f, v0, v1) && (valid_triangle (centroid f, v2, v3) && true)))); cbn [carried map fst snd]; reflexivity.
Qed.

(** Moving and turning the state moves and turns the footprint and every part of the mesh,
    for every model; and where one cannot be made, neither can the other. *)
Theorem C115_rigid : forall union quad valid centroid m m' p psi t a, stands m p psi -> stands m' (in_world t a p) (psi + a) -> same_body m m' ->
  (forall r, valid (map (in_world t a) r) = valid r) -> (forall r, r <> [] -> centroid (map (in_world t a) r) = in_world t a (centroid r)) ->
  carried (map (in_world t a)) (get_footprint union quad valid m) (get_footprint union quad valid m') /\
  carried (map (fun part => (fst part, map (in_world t a) (snd part)))) (get_mesh union quad valid centroid m) (get_mesh union quad valid centroid m').
Proof.
  intros union quad valid centroid m m' p psi t a S S' (K & G & SH) V C.
  assert (MV : forall o, map (in_world (in_world t a p) (psi + a)) o = map (in_world t a) (map (in_world p psi) o)) by (intro o; rewrite map_map; apply map_ext; intro; symmetry; apply world_world).
  assert (F : carried (map (in_world t a)) (get_footprint union quad valid m) (get_footprint union quad valid m')).
  { unfold get_footprint. rewrite (pose_ok _ _ _ S), (pose_ok _ _ _ S'), K, G, SH. cbn [bind].
    destruct (mo_kind m); try (cbn [carried]; rewrite !apply_world; apply MV);
      (destruct (outline_as_polygon union quad (ge_body (mo_geo m))) as [o|e]; cbn [bind carried]; [|reflexivity]); rewrite !apply_world, MV; try reflexivity;
      rewrite V; unfold assert_then; destruct (valid (map (in_world p psi) o)); cbn [carried]; reflexivity. }
  split; [exact F|]. unfold get_mesh. rewrite K.
  destruct (get_footprint union quad valid m) as [f|e], (get_footprint union quad valid m') as [f'|e']; cbn [carried] in F; try contradiction; cbn [bind]; [subst f'|subst e'; reflexivity].
  assert (T : carried (map (fun part : string * list vec => (fst part, map (in_world t a) (snd part))))
     (bind (mesh_of centroid f) (fun ts => Ok (map (fun nt => (fst nt, triangle_ring (snd nt))) ts))) (bind (mesh_of centroid (map (in_world t a) f)) (fun ts => Ok (map (fun nt => (fst nt, triangle_ring (snd nt))) ts)))).
  { pose proof (mesh_world centroid t a f C) as M. destruct (mesh_of centroid f) as [ts|e], (mesh_of centroid (map (in_world t a) f)) as [ts'|e']; cbn [carried] in M; try contradiction; cbn [bind carried]; [|exact M].
    subst ts'. rewrite !map_map. apply map_ext. intros [n [[c x] y]]. reflexivity. }
  destruct (mo_kind m); try exact T; try (cbn [carried]; reflexivity); rewrite V; unfold assert_then; destruct (valid f); cbn [carried]; reflexivity.
Qed.

Lemma mean_world t a r : r <> [] -> removelast r <> [] -> mean_centroid (map (in_world t a) r) = in_world t a (mean_centroid r).
Proof.
  intros _ N. unfold mean_centroid. rewrite removelast_map, map_length. set (o := removelast r) in *. clearbody o.
  assert (SUM : fold_right vadd (0, 0) (map (in_world t a) o) = vadd (vscale (INR (length o)) t) (in_world (0, 0) a (fold_right vadd (0, 0) o))).
  { induction o as [|v l IH]; [unfold vadd, vscale, in_world; cbn; f_equal; ring|]. cbn [map fold_right length]. destruct l as [|w l]; [unfold vadd, vscale, in_world; cbn; f_equal; ring|].
    rewrite IH by discriminate. rewrite (S_INR (length (w :: l))). unfold vadd, vscale, in_world. cbn [fst snd]. f_equal; ring. }
  rewrite SUM. assert (L : INR (length o) <> 0) by (apply not_0_INR; destruct o; [congruence|discriminate]).
  unfold vadd, vscale, in_world. cbn [fst snd]. f_equal; field; exact L.
Qed.

Definition centroid_or_point (r : list vec) : vec := match removelast r with [] => hd (0, 0) r | _ => mean_centroid r end.

Lemma centroid_world t a r : r <> [] -> centroid_or_point (map (in_world t a) r) = in_world t a (centroid_or_point r).
Proof.
  intro N. unfold centroid_or_point. rewrite removelast_map. destruct (removelast r) as [|v l] eqn:E; cbn [map].
  - destruct r; [congruence|reflexivity].
  - apply mean_world; [exact N|congruence].
Qed.

Example C115_ex : let car x y psi := new_model KVehicle (mkO "VehicleState" [("x", Num x); ("y", Num y); ("psi", Num psi); ("vx", Num 3); ("delta", Num 0)]%string) geo_default_car (PModel (0, 1) (0, 1)) in
  stands (car 1 2 0) (1, 2) 0 /\ stands (car 3 2 0) (in_world (2, 0) 0 (1, 2)) (0 + 0) /\ same_body (car 1 2 0) (car 3 2 0) /\
  (forall t a r, r <> [] -> centroid_or_point (map (in_world t a) r) = in_world t a (centroid_or_point r)) /\
  exists f parts, get_footprint (@concat vec) 16 (fun _ => true) (car 1 2 0) = Ok f /\ length f = 5%nat /\ get_mesh (@concat vec) 16 (fun _ => true) mean_centroid (car 1 2 0) = Ok parts /\ length parts = 4%nat.
Proof.
  cbv zeta. split; [repeat split|]. split.
  { unfold stands, has, in_world, new_model, getattr. cbn [mo_state o_dict aget String.eqb Ascii.eqb Bool.eqb fst snd]. rewrite cos_0, sin_0. repeat split; do 2 f_equal; lra. }
  split; [repeat split|]. split; [exact centroid_world|].
  set (m := new_model _ _ _ _). assert (ST : stands m (1, 2) 0) by (repeat split).
  destruct (C115_vehicle_mesh (@concat vec) 16 (fun _ => true) mean_centroid m _ _ _ _ _ _ (1, 2) 0 ST (or_introl eq_refl) eq_refl) as [F M].
  destruct (C84_vehicle_mesh_pf mean_centroid (BodyModel.mkVG "car" (8 / 10) (12 / 10) (12 / 10)) (1, 2) 0 mean_right) as (x0 & x1 & y & r & l & b & fr & O & _ & _ & E & _); try (cbn; lra); [cbn; auto|].
  exists (map (in_world (1, 2) 0) (box_ring x0 x1 y)). eexists. split; [|split; [reflexivity|split; [apply M; exact E|reflexivity]]].
  rewrite F. unfold vehicle_footprint. rewrite O. cbn [bind]. rewrite apply_world. reflexivity.
Qed.

(** ** C116  Friction after a collision *)

(** The friction of a model that has not collided is zero; after a collision it is opposite
    to each velocity and proportional to it: three times the velocity per second for
    two-wheelers, twice for pedestrians, once for other vehicles. *)
Theorem C116_slows : forall m fx fy fw, get_extra_collision_friction_acc m = Ok (Some (fx, fy, fw)) ->
  (mo_kind m = KVehicleDyn \/ mo_kind m = KPedestrian) /\
  (mo_collided m = false -> fx = 0 /\ fy = 0 /\ fw = 0) /\
  (mo_collided m = true -> exists vx vy w mu, has (mo_state m) "vx" vx /\ has (mo_state m) "vy" vy /\ has (mo_state m) "dpsi" w /\ fx = - (mu * vx) /\ fy = - (mu * vy) /\ fw = - (mu * w) /\
     fx * vx + fy * vy <= 0 /\ fw * w <= 0 /\
     (mo_kind m = KPedestrian -> mu = 2) /\
     (mo_kind m = KVehicleDyn -> (In (model_type m) [Ok "bicycle"; Ok "motorcycle"; Ok "differential_drive"]%string /\ mu = 3) \/ (~ In (model_type m) [Ok "bicycle"; Ok "motorcycle"; Ok "differential_drive"]%string /\ mu = 1))).
Proof.
  intros m fx fy fw E. unfold get_extra_collision_friction_acc in E.
  assert (G : forall mu, (if mo_collided m then bind (getnum (mo_state m) "vx") (fun vx => bind (getnum (mo_state m) "vy") (fun vy => bind (getnum (mo_state m) "dpsi") (fun dpsi => Ok (Some (- mu * vx, - mu * vy, - mu * dpsi))))) else Ok (Some (0, 0, 0))) = Ok (Some (fx, fy, fw)) -> 0 <= mu ->
    (mo_collided m = false -> fx = 0 /\ fy = 0 /\ fw = 0) /\
    (mo_collided m = true -> exists vx vy w, has (mo_state m) "vx" vx /\ has (mo_state m) "vy" vy /\ has (mo_state m) "dpsi" w /\ fx = - (mu * vx) /\ fy = - (mu * vy) /\ fw = - (mu * w) /\ fx * vx + fy * vy <= 0 /\ fw * w <= 0)).
  { clear E. intros mu E P. destruct (mo_collided m); split; intro C; try discriminate.
    - assert (GN : forall f r, getnum (mo_state m) f = Ok r -> has (mo_state m) f r).
      { intros f r. unfold getnum, has. destruct (getattr (mo_state m) f) as [[x|n]|e]; cbn; try discriminate. intros [= <-]. reflexivity. }
      destruct (getnum (mo_state m) "vx") as [vx|] eqn:VX; cbn [bind] in E; [|discriminate]. destruct (getnum (mo_state m) "vy") as [vy|] eqn:VY; cbn [bind] in E; [|discriminate].
      destruct (getnum (mo_state m) "dpsi") as [w|] eqn:W; cbn [bind] in E; [|discriminate]. injection E as <- <- <-. exists vx, vy, w.
      split; [apply GN, VX|split; [apply GN, VY|split; [apply GN, W|]]]. repeat split; try ring.
      + replace (- mu * vx * vx + - mu * vy * vy) with (- (mu * (vx * vx + vy * vy))) by ring. pose proof (Rmult_le_pos mu (vx * vx + vy * vy) P ltac:(nra)). lra.
      + replace (- mu * w * w) with (- (mu * (w * w))) by ring. pose proof (Rmult_le_pos mu (w * w) P ltac:(nra)). lra.
    - injection E as <- <- <-. auto. }
  destruct (mo_kind m) eqn:K; try discriminate.
  - destruct (model_type m) as [t|e] eqn:T; cbn [bind] in E; [|discriminate]. destruct (G _ E ltac:(destruct (existsb _ _); lra)) as [A B]. split; [auto|]. split; [exact A|].
    intro C. destruct (B C) as (vx & vy & w & H1 & H2 & H3 & H4 & H5 & H6 & H7 & H8). exists vx, vy, w, (if existsb (String.eqb t) ["bicycle"; "motorcycle"; "differential_drive"]%string then 3 else 1).
    repeat (split; [assumption|]). split; [discriminate|]. intros _. destruct (existsb (String.eqb t) ["bicycle"; "motorcycle"; "differential_drive"]%string) eqn:X.
    + left. split; [|reflexivity]. apply existsb_exists in X as (s & I & Q). apply String.eqb_eq in Q as <-. apply (in_map (@Ok string)) in I. exact I.
    + right. split; [|reflexivity]. intro I. assert (Y : existsb (String.eqb t) ["bicycle"; "motorcycle"; "differential_drive"]%string = true); [|congruence].
      apply existsb_exists. exists t. split; [|apply String.eqb_refl]. destruct I as [Q|[Q|[Q|[]]]]; injection Q as <-; cbn; auto.
  - destruct (G _ E ltac:(lra)) as [A B]. split; [auto|]. split; [exact A|]. intro C. destruct (B C) as (vx & vy & w & H1 & H2 & H3 & H4 & H5 & H6 & H7 & H8). exists vx, vy, w, 2. repeat (split; [assumption|]). split; [reflexivity|discriminate].
Qed.

(** Only pedestrians and dynamic vehicles have friction; the spaceship and obstacles raise
    NotImplementedError. *)
Theorem C116_kinds : forall m,
  (In (mo_kind m) [KVehicle; KDiffDrive; KSpacecraft; KRocket] -> get_extra_collision_friction_acc m = Ok None) /\
  (In (mo_kind m) [KSpaceship; KDynObstacle] -> get_extra_collision_friction_acc m = Err PyOther) /\
  (mo_kind m = KPedestrian -> instance_of cPedestrianState (mo_state m) -> exists f, get_extra_collision_friction_acc m = Ok (Some f)) /\
  (mo_kind m = KVehicleDyn -> instance_of cVehicleStateDyn (mo_state m) -> (exists t, model_type m = Ok t) -> exists f, get_extra_collision_friction_acc m = Ok (Some f)).
Proof.
  intros m.
  assert (NUM : forall c f, instance_of c (mo_state m) -> In f (c_fields c) -> f <> "lights"%string -> exists r, getnum (mo_state m) f = Ok r).
  { intros c f (_ & F & V) I N. rewrite <- F in I. unfold getnum, getattr.
    assert (A : exists v, aget String.eqb (o_dict (mo_state m)) f = Some v /\ In (f, v) (o_dict (mo_state m))).
    { clear F V. induction (o_dict (mo_state m)) as [|[k v] l IH]; [destruct I|]. cbn [aget]. destruct (string_dec k f) as [->|Q].
      - exists v. rewrite String.eqb_refl. split; [reflexivity|left; reflexivity].
      - destruct I as [I|I]; [cbn in I; congruence|]. replace (String.eqb k f) with false by (symmetry; apply String.eqb_neq, Q). destruct (IH I) as (v' & A & B). exists v'. split; [exact A|right; exact B]. }
    destruct A as (v & -> & B). destruct (proj2 (V _ _ B) N) as [r ->]. exists r. reflexivity. }
  unfold get_extra_collision_friction_acc. split; [|split; [|split]].
  - intros [E|[E|[E|[E|[]]]]]; rewrite <- E; reflexivity.
  - intros [E|[E|[]]]; rewrite <- E; reflexivity.
  - intros K I. rewrite K. destruct (mo_collided m); [|eexists; reflexivity].
    destruct (NUM _ "vx"%string I ltac:(cbn; tauto) ltac:(discriminate)) as [a ->]. destruct (NUM _ "vy"%string I ltac:(cbn; tauto) ltac:(discriminate)) as [b ->]. destruct (NUM _ "dpsi"%string I ltac:(cbn; tauto) ltac:(discriminate)) as [c ->]. eexists; reflexivity.
  - intros K I [t T]. rewrite K, T. cbn [bind]. destruct (mo_collided m); [|eexists; reflexivity].
    destruct (NUM _ "vx"%string I ltac:(cbn; tauto) ltac:(discriminate)) as [a ->]. destruct (NUM _ "vy"%string I ltac:(cbn; tauto) ltac:(discriminate)) as [b ->]. destruct (NUM _ "dpsi"%string I ltac:(cbn; tauto) ltac:(discriminate)) as [c ->]. eexists; reflexivity.
Qed.

(** This is the friction in the equations of motion. *)
Theorem C116_dynamics : forall m fx fy fw,
  (forall t name s, mo_kind m = KVehicleDyn -> mo_state m = dst_obj s -> model_type m = Ok name -> type_string t = Some name -> get_extra_collision_friction_acc m = Ok (Some (fx, fy, fw)) ->
     vehicle_friction t (mo_collided m) s = (fx, fy, fw)) /\
  (forall s pp x0 u, mo_kind m = KPedestrian -> mo_state m = st6_obj "PedestrianState" s -> get_extra_collision_friction_acc m = Ok (Some (fx, fy, fw)) ->
     let dx := pedestrian_dynamics pp (mo_collided m) s x0 u in
     s_vx dx = apply_full_acceleration_limits (s_vx x0) (pc_acc u) (pp_m pp) + fx /\ s_vy dx = fy /\ s_dpsi dx = fw).
Proof.
  intros m fx fy fw. split.
  - intros t name s K S T TS E. unfold get_extra_collision_friction_acc in E. rewrite K, T in E. cbn [bind] in E. unfold vehicle_friction. destruct (mo_collided m).
    + rewrite S in E. cbn in E. destruct t; cbn in TS; try discriminate; injection TS as <-; cbn in E; injection E as <- <- <-; cbn [two_wheels]; repeat f_equal; ring.
    + injection E as <- <- <-. reflexivity.
  - intros s pp x0 u K S E. unfold get_extra_collision_friction_acc in E. rewrite K in E. unfold pedestrian_dynamics. destruct (mo_collided m).
    + rewrite S in E. cbn in E. injection E as <- <- <-. cbn. repeat split; ring.
    + injection E as <- <- <-. cbn. repeat split; ring.
Qed.

Example C116_ex : let s := mkD 0 0 0 2 1 (1 / 2) 0 in
  let m := mkModel KVehicleDyn (dst_obj s) "VehicleStateDyn" geo_default_bicycle (PModel (0, 1) (0, 1)) [] None true in
  get_extra_collision_friction_acc m = Ok (Some (- 3 * 2, - 3 * 1, - 3 * (1 / 2))) /\ model_type m = Ok "bicycle"%string /\ type_string BICYCLE = Some "bicycle"%string.
Proof. repeat split. Qed.

(** ** C117  Ready-made models *)

Lemma presets d x0 : (d = Pedestrian -> o_cls x0 = "PedestrianState"%string) -> exists p g, default_model d x0 = Ok (mkModel (own_kind d) x0 (o_cls x0) g p [] (match own_kind d, d with KVehicleDyn, DynBicycle => Some (P3 12 (23 / 10) (8 / 10), P3 12 2 1) | KVehicleDyn, _ => Some (P3 10 (19 / 10) (9 / 10), P3 11 (19 / 10) 1) | _, _ => None end) false) /\ proper p /\
  match d with Spacecraft => geo_default_spacecraft = Ok g | Car | DynCar => g = geo_default_car | Truck | DynTruck => g = geo_default_truck | Bicycle | DynBicycle => g = geo_default_bicycle
   | Pedestrian => g = geo_default_pedestrian | DiffDrive => g = geo_default_diff_drive | Rocket => g = geo_default_rocket | Spaceship => g = geo_default_spaceship end /\
  match d with Car | DynCar => vp_default_car | Truck | DynTruck => vp_default_truck | Bicycle | DynBicycle => vp_default_bicycle | Pedestrian => ped_params_default | DiffDrive => dd_params_default (-5, 5)
   | Spacecraft => sc_params_default | Rocket => ro_params_default | Spaceship => ss_params_default end = Ok p.
Proof.
  intro PC. pose proof C114_vehicles_pf as ((v1 & E1 & _) & (v2 & E2 & _) & (v3 & E3 & _)). pose proof C114_others_pf as ((v4 & E4 & _) & E5 & (v6 & E6 & _) & (v7 & d7 & dd7 & E7 & _) & (v8 & d8 & dd8 & E8 & _)).
  assert (SG : geo_default_spacecraft = Ok (mkGeo (Some 50) (Some 100) (7 / 10) "royalblue" (GSpacecraft (mkSG 1 2 3) "spacecraft"))).
  { unfold geo_default_spacecraft, spacecraft_geometry_init. unfold LaneModel.ltb, DynModel.ltb. destruct (Rlt_dec 2 3); [reflexivity|exfalso; lra]. }
  destruct (C114_built_pf _ _ E1) as [Q P1]; rewrite <- Q in P1; clear Q. destruct (C114_built_pf _ _ E2) as [Q P2]; rewrite <- Q in P2; clear Q. destruct (C114_built_pf _ _ E3) as [Q P3']; rewrite <- Q in P3'; clear Q. destruct (C114_built_pf _ _ E4) as [Q P4']; rewrite <- Q in P4'; clear Q. destruct (C114_built_pf _ _ E5) as [Q P5]; clear Q. destruct (C114_built_pf _ _ E6) as [Q P6]; rewrite <- Q in P6; clear Q. destruct (C114_built_pf _ _ E7) as [Q P7]; rewrite <- Q in P7; clear Q. destruct (C114_built_pf _ _ E8) as [Q P8]; rewrite <- Q in P8; clear Q.
  destruct d; cbn [default_model own_kind]; unfold vehicle_model, vehicle_model_dyn, pedestrian_model, diff_drive_model, spacecraft_model, rocket_model, spaceship_model, new_model; rewrite ?SG; cbn [bind];
    first [rewrite E1|rewrite E2|rewrite E3|rewrite E4|rewrite E5|rewrite E6|rewrite E7|rewrite E8]; cbn [bind]; try (rewrite (PC eq_refl), String.eqb_refl; cbn [assert_then]);
    eexists _, _; (split; [reflexivity|]); (split; [|split; reflexivity]).
  all: first [exact P1|exact P2|exact P3'|exact P4'|exact P5|exact P6|exact P7|exact P8].
Qed.

(** Every ready-made model can be made from a state of its class and starts from it, has
    the right type and proper parameters, and has not collided; its mass and moment of
    inertia are positive and its restitution is between zero and one. *)
Theorem C117_default : forall d x0, o_cls x0 = c_name (state_class (own_kind d)) -> exists m, default_model d x0 = Ok m /\
  mo_kind m = own_kind d /\ mo_state m = x0 /\ mo_XT m = o_cls x0 /\ mo_collided m = false /\ model_type m = Ok (type_name d) /\ proper (mo_params m) /\
  exists mass Iz, ge_m (mo_geo m) = Some mass /\ ge_Iz (mo_geo m) = Some Iz /\ (mass, Iz, 100 * ge_e (mo_geo m)) = mass_table d /\ 0 < mass /\ 0 < Iz /\ 0 < ge_e (mo_geo m) < 1.
Proof.
  intros d x0 C. destruct (presets d x0) as (p & g & E & P & G & _); [intros ->; exact C|]. eexists. split; [exact E|]. cbn [mo_kind mo_state mo_XT mo_collided mo_params mo_geo]. repeat (split; [reflexivity|]).
  assert (SG : forall g, geo_default_spacecraft = Ok g -> g = mkGeo (Some 50) (Some 100) (7 / 10) "royalblue" (GSpacecraft (mkSG 1 2 3) "spacecraft")).
  { intro g'. unfold geo_default_spacecraft, spacecraft_geometry_init. unfold LaneModel.ltb, DynModel.ltb. destruct (Rlt_dec 2 3); [|discriminate]. intros [= <-]. reflexivity. }
  split; [|split; [exact P|]].
  - destruct d; try (rewrite (SG _ G)); try (rewrite G); reflexivity.
  - destruct d; try (rewrite (SG _ G)); try (rewrite G); cbn [ge_m ge_Iz ge_e geo_default_car geo_default_truck geo_default_bicycle geo_default_pedestrian geo_default_diff_drive geo_default_rocket geo_default_spaceship];
      eexists _, _; (split; [reflexivity|split; [reflexivity|split; [unfold mass_table; repeat f_equal; lra|lra]]]).
Qed.

(** They have the default parameters of their kind and, for dynamic vehicles, default tyres. *)
Theorem C117_parts : forall d x0 m, default_model d x0 = Ok m ->
  match d with Car | DynCar => vp_default_car | Truck | DynTruck => vp_default_truck | Bicycle | DynBicycle => vp_default_bicycle | Pedestrian => ped_params_default | DiffDrive => dd_params_default (-5, 5)
   | Spacecraft => sc_params_default | Rocket => ro_params_default | Spaceship => ss_params_default end = Ok (mo_params m) /\
  match d with DynCar | DynTruck => mo_tyres m = Some (P3 10 (19 / 10) (9 / 10), P3 11 (19 / 10) 1) | DynBicycle => mo_tyres m = Some (P3 12 (23 / 10) (8 / 10), P3 12 2 1) | _ => mo_tyres m = None end.
Proof.
  intros d x0 m E. destruct (presets d x0) as (p & g & E' & _ & _ & Q).
  { intros ->. cbn [default_model] in E. destruct ped_params_default; cbn [bind] in E; [|discriminate]. unfold pedestrian_model, assert_then in E. destruct (String.eqb (o_cls x0) "PedestrianState") eqn:Q; [|discriminate]. apply String.eqb_eq, Q. }
  rewrite E in E'. injection E' as ->. cbn [mo_params mo_tyres]. split; [exact Q|]. destruct d; reflexivity.
Qed.

(** The bodies of the ready-made models.  Vehicles get their mesh of four parts. *)
Theorem C117_bodies : forall d x0 m, default_model d x0 = Ok m ->
  match d, ge_body (mo_geo m) with
  | (Car | DynCar), GVehicle g _ _ _ _ _ => g_w_half g = 8 / 10 /\ g_lf g = 12 / 10 /\ g_lr g = 12 / 10
  | (Truck | DynTruck), GVehicle g _ _ _ _ _ => g_w_half g = 12 / 10 /\ g_lf g = 4 /\ g_lr g = 4
  | (Bicycle | DynBicycle), GVehicle g _ _ _ _ _ => g_w_half g = 1 / 4 /\ g_lf g = 1 /\ g_lr g = 1
  | Pedestrian, GPedestrian => True
  | DiffDrive, GDiffDrive _ wb wr r => wb = 1 /\ wr = 2 / 10 /\ r = 6 / 10
  | Spacecraft, GSpacecraft g _ => sg_w_half g = 1 /\ sg_lf g = 2 /\ sg_lr g = 3 /\ n_thrusters (ge_body (mo_geo m)) = Some 2%nat
  | Rocket, GRocket g _ => rg_w_half g = 2 / 10 /\ rg_l g = 9 / 10 /\ n_thrusters (ge_body (mo_geo m)) = Some 2%nat
  | Spaceship, GSpaceship g _ => hg_w_half g = 4 / 10 /\ spaceship_l g = 23 / 10 /\ n_thrusters (ge_body (mo_geo m)) = Some 1%nat
  | _, _ => False
  end.
Proof.
  intros d x0 m E.
  assert (SG : forall g, geo_default_spacecraft = Ok g -> g = mkGeo (Some 50) (Some 100) (7 / 10) "royalblue" (GSpacecraft (mkSG 1 2 3) "spacecraft")).
  { intro g'. unfold geo_default_spacecraft, spacecraft_geometry_init. unfold LaneModel.ltb, DynModel.ltb. destruct (Rlt_dec 2 3); [|discriminate]. intros [= <-]. reflexivity. }
  destruct (presets d x0) as (p & g & E' & P & G & _).
  { intros ->. cbn [default_model] in E. destruct ped_params_default; cbn [bind] in E; [|discriminate]. unfold pedestrian_model, assert_then in E. destruct (String.eqb (o_cls x0) "PedestrianState") eqn:Q; [|discriminate]. apply String.eqb_eq, Q. }
  rewrite E in E'. injection E' as ->. cbn [mo_geo]. destruct d; try (rewrite (SG _ G)); try (rewrite G); cbn [ge_body geo_default_car geo_default_truck geo_default_bicycle geo_default_pedestrian geo_default_diff_drive geo_default_rocket geo_default_spaceship]; repeat split; cbn; try lra; unfold spaceship_l; cbn; lra.
Qed.

Theorem C117_mesh : forall union quad valid centroid d x0 m p psi, right_centroid centroid -> default_model d x0 = Ok m -> stands m p psi -> In (own_kind d) [KVehicle; KVehicleDyn] ->
  exists right left back front, get_mesh union quad valid centroid m = Ok [("right", right); ("left", left); ("back", back); ("front", front)]%string.
Proof.
  intros union quad valid centroid d x0 m p psi RC E S K.
  destruct (presets d x0) as (pp & g & E' & P & G & _); [intros ->; destruct K as [K|[K|[]]]; discriminate|]. rewrite E in E'. injection E' as ->.
  assert (B : exists vg c1 c2 c3 c4 c5, ge_body g = GVehicle vg c1 c2 c3 c4 c5 /\ In (g_type vg) vehicle_types /\ 0 <= g_w_half vg /\ 0 <= g_lf vg /\ 0 <= g_lr vg).
  { destruct d; cbn in K; try (destruct K as [K|[K|[]]]; discriminate); rewrite G; eexists _, _, _, _, _, _; (split; [reflexivity|]); cbn; (split; [auto|lra]). }
  destruct B as (vg & c1 & c2 & c3 & c4 & c5 & B & T & W & LF & LR).
  destruct (C84_vehicle_mesh_pf centroid vg p psi RC T W LF LR) as (x0' & x1 & y & r & l & b & f & _ & _ & _ & M & _).
  destruct (C115_vehicle_mesh_pf union quad valid centroid _ vg c1 c2 c3 c4 c5 p psi S ltac:(cbn [mo_kind]; cbn in K |- *; tauto) B) as [_ MM]. rewrite (MM _ M). destruct r as [[? ?] ?], l as [[? ?] ?], b as [[? ?] ?], f as [[? ?] ?]. eexists _, _, _, _. reflexivity.
Qed.

(** Static things cannot be moved: their mass and moment of inertia are infinite. *)
Theorem C117_static : forall g, In g [geo_default_obstacle; geo_default_static] -> ge_m g = None /\ ge_Iz g = None /\ 0 < ge_e g < 1 /\ forall union quad, outline_as_polygon union quad (ge_body g) = Err PyOther.
Proof. intros g [<-|[<-|[]]]; cbn; repeat split; lra. Qed.

Example C117_ex : exists m, default_model Rocket (mkO "RocketState" []) = Ok m /\ model_type m = Ok "rocket"%string.
Proof. destruct (C117_default Rocket (mkO "RocketState" []) eq_refl) as (m & E & _ & _ & _ & _ & T & _). exists m. split; assumption. Qed.

(** ** C118  States of another class *)

(** A pedestrian model refuses the state of another class. *)
Theorem C118_pedestrian : forall x0 g p, (o_cls x0 <> "PedestrianState"%string -> pedestrian_model x0 g p = Err PyAssertionError /\ default_model Pedestrian x0 = Err PyAssertionError) /\
  (o_cls x0 = "PedestrianState"%string -> exists m, pedestrian_model x0 g p = Ok m /\ mo_state m = x0).
Proof.
  intros x0 g p. unfold pedestrian_model, default_model. split; intro N.
  - assert (Q : String.eqb (o_cls x0) "PedestrianState" = false) by (apply String.eqb_neq, N). unfold pedestrian_model. rewrite Q. split; [reflexivity|]. pose proof C114_others_pf as ((v & -> & _) & _). reflexivity.
  - rewrite N, String.eqb_refl. eexists. split; reflexivity.
Qed.

(** The other ready-made models accept any object as a state; a car can be made with the
    state of a rocket. *)
Theorem C118_refuted : forall d x0, d <> Pedestrian -> exists m, default_model d x0 = Ok m /\ mo_state m = x0 /\ mo_XT m = o_cls x0.
Proof. intros d x0 N. destruct (presets d x0) as (p & g & E & _); [congruence|]. eexists. split; [exact E|]. split; reflexivity. Qed.

(** Setting a state checks nothing, for pedestrians either, and integration goes on with
    the class of the first state. *)
Theorem C118_set_state_refuted : forall m x, mo_state (set_state m x) = x /\ mo_XT (set_state m x) = mo_XT m /\ mo_kind (set_state m x) = mo_kind m.
Proof. intros. repeat split. Qed.

(** The shape of an obstacle must be valid. *)
Theorem C118_obstacle : forall valid x0 shape g p, (valid shape = true -> exists m, obstacle_model valid x0 shape g p = Ok m /\ mo_shape m = shape /\ mo_state m = x0 /\ model_type m = Ok "dynamic_obstacle"%string) /\
  (valid shape = false -> obstacle_model valid x0 shape g p = Err PyAssertionError).
Proof. intros valid x0 shape g p. unfold obstacle_model. split; intros ->; [eexists; repeat split|reflexivity]. Qed.

Example C118_ex : o_cls (mkO "RocketState" []) <> "PedestrianState"%string /\ exists m, default_model Car (mkO "RocketState" []) = Ok m /\ model_type m = Ok "car"%string.
Proof. split; [discriminate|]. destruct (presets Car (mkO "RocketState" [])) as (p & g & E & _ & -> & _); [discriminate|]. eexists. split; [exact E|reflexivity]. Qed.
