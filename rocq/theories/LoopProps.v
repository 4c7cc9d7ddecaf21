(* Generated from tools/Loop.src by tools/gen_props.py. *)
(** Simulations of the models of the package. *)
From Coq Require Import String QArith Qcanon Qreals Reals List Bool Arith Lra Lia.
From Coq Require ClassicalEpsilon.
From Verif Require Import Base Num DictLemmas R2 SeqModel GeoModel DataModel DataSpec DataProofs DataMain LaneModel BodyModel BodySpec BodyMain DynModel DynSpec DynProofs DynMain DrawModel CollModel CollSpec CollProofs CollMain BuildModel BuildSpec BuildMain ImpactModel ImpactSpec ImpactMain SimulatorModel SimulatorSpec SimulatorWorld SimulatorProofs SimulatorProofs5 SimulatorProofs6 SimulatorProofs7 SimulatorMain LoopModel LoopSpec LoopProofs.
Import ListNotations.
Open Scope R_scope.
Local Open Scope string_scope.
Local Arguments aget {K V} eqb d k : simpl nomatch.
Local Arguments aset {K V} eqb d k v : simpl nomatch.
From Verif Require Import LoopMain.

(** ** C122  update on arrays *)

(** update does not change anything but the state, which is then an object of the class
    of the states of the model. *)
Theorem C122_frame : forall solve m u dt m', model_update solve m u dt = Ok m' ->
  same_make m m' /\ mo_collided m' = mo_collided m /\ instance_of (state_class (mo_kind m)) (mo_state m').
Proof. exact C122_frame_pf. Qed.
Print Assumptions C122_frame.

(** With a Runge-Kutta method, update of the models on arrays is what DynModel.v says
    about the equations of motion. *)
Theorem C122_vehicle : forall m g vx acc p x u a b tab hs dt,
  mo_kind m = KVehicle -> mo_params m = PVehicle vx acc (vp_dmax p) (vp_ddmax p) -> same_vehicle (mo_geo m) g -> same_limits vx acc (vp_m p) -> mo_state m = vst_obj x -> has u "acc" a -> has u "ddelta" b ->
  moves_to m (option_map vst_obj (DynModel.update (vehicle_plant g p) tab (mo_collided m) x (mkVCm a b) hs)) (model_update (rk_array tab hs) m u dt).
Proof. exact C122_vehicle_pf. Qed.
Print Assumptions C122_vehicle.

Theorem C122_vehicle_dyn : forall m g vx acc p pf pr x u a b tab hs dt,
  mo_kind m = KVehicleDyn -> mo_params m = PVehicle vx acc (vp_dmax p) (vp_ddmax p) -> same_vehicle (mo_geo m) g -> same_limits vx acc (vp_m p) -> mo_tyres m = Some (pf, pr) -> mo_state m = dst_obj x -> has u "acc" a -> has u "ddelta" b ->
  moves_to m (option_map dst_obj (DynModel.update (vehicle_dyn_plant g p pf pr) tab (mo_collided m) x (mkVCm a b) hs)) (model_update (rk_array tab hs) m u dt).
Proof. exact C122_vehicle_dyn_pf. Qed.
Print Assumptions C122_vehicle_dyn.

Theorem C122_pedestrian : forall m vx acc p x u a b tab hs dt,
  mo_kind m = KPedestrian -> mo_params m = PPedestrian vx acc (pp_dtheta p) -> same_limits vx acc (pp_m p) -> mo_state m = st6_obj "PedestrianState" x -> has u "acc" a -> has u "dpsi" b ->
  moves_to m (option_map (st6_obj "PedestrianState") (DynModel.update (pedestrian_plant p) tab (mo_collided m) x (mkPC a b) hs)) (model_update (rk_array tab hs) m u dt).
Proof. exact C122_pedestrian_pf. Qed.
Print Assumptions C122_pedestrian.

Theorem C122_diff_drive : forall m vx acc lo hi t wb wr rad x u a b tab hs dt,
  mo_kind m = KDiffDrive -> mo_params m = PDiffDrive vx acc (lo, hi) -> ge_body (mo_geo m) = GDiffDrive t wb wr rad -> mo_state m = st3_obj x -> has u "omega_l" a -> has u "omega_r" b ->
  moves_to m (option_map st3_obj (DynModel.update (diff_drive_plant wb wr lo hi) tab (mo_collided m) x (mkWC a b) hs)) (model_update (rk_array tab hs) m u dt).
Proof. exact C122_diff_drive_pf. Qed.
Print Assumptions C122_diff_drive.

Theorem C122_spacecraft : forall m vx acc lo hi p g t ms iz x u a b tab hs dt,
  mo_kind m = KSpacecraft -> mo_params m = PSpacecraft vx acc (lo, hi) -> same_limits vx acc p -> ge_body (mo_geo m) = GSpacecraft g t -> ge_m (mo_geo m) = Some ms -> ge_Iz (mo_geo m) = Some iz ->
  mo_state m = st6_obj "SpacecraftState" x -> has u "acc_left" a -> has u "acc_right" b ->
  moves_to m (option_map (st6_obj "SpacecraftState") (DynModel.update (spacecraft_plant p lo hi (sg_w_half g) ms iz) tab (mo_collided m) x (mkSC a b) hs)) (model_update (rk_array tab hs) m u dt).
Proof. exact C122_spacecraft_pf. Qed.
Print Assumptions C122_spacecraft.

Theorem C122_obstacle : forall m vx acc lo hi ddp p x u a b d tab hs dt,
  mo_kind m = KDynObstacle -> mo_params m = PObstacle vx acc (lo, hi) ddp -> same_limits vx acc p -> mo_state m = st6_obj "DynObstacleState" x -> has u "acc_x" a -> has u "acc_y" b -> has u "acc_psi" d ->
  moves_to m (option_map (st6_obj "DynObstacleState") (DynModel.update (obstacle_plant p lo hi) tab (mo_collided m) x (mkOC a b d) hs)) (model_update (rk_array tab hs) m u dt).
Proof. exact C122_obstacle_pf. Qed.
Print Assumptions C122_obstacle.

Theorem C122_rocket : forall m vx acc p g t iz x u a b d tab hs dt,
  mo_kind m = KRocket -> mo_params m = PRocket vx acc (rp_mv p) (rp_CT p) (rp_Flo p, rp_Fhi p) (rp_lo p, rp_hi p) (rp_dlo p, rp_dhi p) -> ge_body (mo_geo m) = GRocket g t -> ge_Iz (mo_geo m) = Some iz ->
  mo_state m = st8_obj "RocketState" "phi" x -> has u "F_left" a -> has u "F_right" b -> has u "dphi" d ->
  moves_to m (option_map (st8_obj "RocketState" "phi") (DynModel.update (rocket_plant p iz (rg_l_m g)) tab (mo_collided m) x (mkRC a b d) hs)) (model_update (rk_array tab hs) m u dt).
Proof. exact C122_rocket_pf. Qed.
Print Assumptions C122_rocket.

Theorem C122_spaceship : forall m vx acc p g t iz x u a b tab hs dt,
  mo_kind m = KSpaceship -> mo_params m = PSpaceship vx acc (rp_mv p) (rp_CT p) (rp_Flo p, rp_Fhi p) (rp_lo p, rp_hi p) (rp_dlo p, rp_dhi p) -> ge_body (mo_geo m) = GSpaceship g t -> ge_Iz (mo_geo m) = Some iz ->
  mo_state m = st8_obj "SpaceshipState" "delta" x -> has u "thrust" a -> has u "ddelta" b ->
  moves_to m (option_map (st8_obj "SpaceshipState" "delta") (DynModel.update (spaceship_plant p iz (hg_l_r g)) tab (mo_collided m) x (mkSSC a b) hs)) (model_update (rk_array tab hs) m u dt).
Proof. exact C122_spaceship_pf. Qed.
Print Assumptions C122_spaceship.

Example C122_ex : let m := mkModel KVehicle (vst_obj (mkV 0 0 0 10 0)) "VehicleState" geo_default_car (PVehicle (mp_vlo (vp_m vp_rcar), mp_vhi (vp_m vp_rcar)) (mp_alo (vp_m vp_rcar), mp_ahi (vp_m vp_rcar)) (vp_dmax vp_rcar) (vp_ddmax vp_rcar)) [] None false in
  let u := mkO "VehicleCommands" [("acc", Num 0); ("ddelta", Num 0); ("lights", Lights "off")] in
  same_vehicle (mo_geo m) vg_car /\ has u "acc" 0 /\ has u "ddelta" 0 /\ exists m', model_update (rk_array ([[]], [1]) [2]) m u 2 = Ok m' /\ has (mo_state m') "x" 20 /\ has (mo_state m') "vx" 10.
Proof.
  intros m u. assert (G : same_vehicle (mo_geo m) vg_car) by (split; [reflexivity|]; split; [reflexivity|]; eexists; split; reflexivity).
  split; [exact G|]. split; [reflexivity|]. split; [reflexivity|].
  pose proof (C122_vehicle_pf m vg_car _ _ vp_rcar (mkV 0 0 0 10 0) u 0 0 ([[]], [1]) [2] 2 eq_refl eq_refl G (conj eq_refl eq_refl) eq_refl eq_refl eq_refl) as H.
  assert (A : apply_full_acceleration_limits 10 0 (vp_m vp_rcar) = 0) by (unfold apply_full_acceleration_limits, apply_speed_constraint, apply_acceleration_limits, vp_rcar; cbn [vp_m mp_vlo mp_vhi mp_alo mp_ahi]; cmp).
  assert (B : steering_constraint 0 0 (vp_dmax vp_rcar) (vp_ddmax vp_rcar) = 0) by (unfold steering_constraint, vp_rcar; cbn [vp_dmax vp_ddmax]; cmp).
  unfold DynModel.update, moves_to in H. cbn - [vp_rcar vg_car m u model_update] in H. unfold vehicle_dynamics in H. cbn - [vp_rcar vg_car m u model_update steering_constraint apply_full_acceleration_limits] in H. change (mo_collided m) with false in H. cbn [andb c_acc c_ddelta] in H. rewrite A, B, tan_0, cos_0, sin_0 in H.
  eexists. split; [exact H|]. split; unfold has; cbn; do 2 f_equal; unfold vg_wheelbase; cbn; field.
Qed.

(** The other kinds: a model of each that meets the hypotheses. *)
Example C122_others_ex :
  (exists m g vx acc p pf pr x u, mo_kind m = KVehicleDyn /\ mo_params m = PVehicle vx acc (vp_dmax p) (vp_ddmax p) /\ same_vehicle (mo_geo m) g /\ same_limits vx acc (vp_m p) /\ mo_tyres m = Some (pf, pr) /\ mo_state m = dst_obj x /\ has u "acc" 1 /\ has u "ddelta" 2) /\
  (exists m vx acc p x u, mo_kind m = KPedestrian /\ mo_params m = PPedestrian vx acc (pp_dtheta p) /\ same_limits vx acc (pp_m p) /\ mo_state m = st6_obj "PedestrianState" x /\ has u "acc" 1 /\ has u "dpsi" 2) /\
  (exists m vx acc lo hi t wb wr rad x u, mo_kind m = KDiffDrive /\ mo_params m = PDiffDrive vx acc (lo, hi) /\ ge_body (mo_geo m) = GDiffDrive t wb wr rad /\ mo_state m = st3_obj x /\ has u "omega_l" 1 /\ has u "omega_r" 2) /\
  (exists m vx acc lo hi p g t ms iz x u, mo_kind m = KSpacecraft /\ mo_params m = PSpacecraft vx acc (lo, hi) /\ same_limits vx acc p /\ ge_body (mo_geo m) = GSpacecraft g t /\ ge_m (mo_geo m) = Some ms /\ ge_Iz (mo_geo m) = Some iz /\ mo_state m = st6_obj "SpacecraftState" x /\ has u "acc_left" 1 /\ has u "acc_right" 2) /\
  (exists m vx acc lo hi ddp p x u, mo_kind m = KDynObstacle /\ mo_params m = PObstacle vx acc (lo, hi) ddp /\ same_limits vx acc p /\ mo_state m = st6_obj "DynObstacleState" x /\ has u "acc_x" 1 /\ has u "acc_y" 2 /\ has u "acc_psi" 3) /\
  (exists m vx acc p g t iz x u, mo_kind m = KRocket /\ mo_params m = PRocket vx acc (rp_mv p) (rp_CT p) (rp_Flo p, rp_Fhi p) (rp_lo p, rp_hi p) (rp_dlo p, rp_dhi p) /\ ge_body (mo_geo m) = GRocket g t /\ ge_Iz (mo_geo m) = Some iz /\ mo_state m = st8_obj "RocketState" "phi" x /\ has u "F_left" 1 /\ has u "F_right" 2 /\ has u "dphi" 3) /\
  (exists m vx acc p g t iz x u, mo_kind m = KSpaceship /\ mo_params m = PSpaceship vx acc (rp_mv p) (rp_CT p) (rp_Flo p, rp_Fhi p) (rp_lo p, rp_hi p) (rp_dlo p, rp_dhi p) /\ ge_body (mo_geo m) = GSpaceship g t /\ ge_Iz (mo_geo m) = Some iz /\ mo_state m = st8_obj "SpaceshipState" "delta" x /\ has u "thrust" 1 /\ has u "ddelta" 2).
Proof.
  set (L := (-1, 1) : R * R).
  split; [exists (mkModel KVehicleDyn (dst_obj (mkD 0 0 0 10 0 1 0)) "VehicleStateDyn" geo_default_car (PVehicle (mp_vlo (vp_m vp_rcar), mp_vhi (vp_m vp_rcar)) (mp_alo (vp_m vp_rcar), mp_ahi (vp_m vp_rcar)) (vp_dmax vp_rcar) (vp_ddmax vp_rcar)) [] (Some (P3 10 2 1, P3 10 2 1)) false);
    exists vg_car, (mp_vlo (vp_m vp_rcar), mp_vhi (vp_m vp_rcar)), (mp_alo (vp_m vp_rcar), mp_ahi (vp_m vp_rcar)), vp_rcar, (P3 10 2 1), (P3 10 2 1), (mkD 0 0 0 10 0 1 0), (mkO "VehicleCommands" [("acc", Num 1); ("ddelta", Num 2)]); repeat split; eexists; split; reflexivity|].
  split; [exists (mkModel KPedestrian (st6_obj "PedestrianState" (mk6 0 0 0 1 0 0)) "PedestrianState" geo_default_pedestrian (PPedestrian (-1, 1) (-2, 2) PI) [] None false), (-1, 1), (-2, 2), (mkPP (mkMP (-1) 1 (-2) 2) PI), (mk6 0 0 0 1 0 0), (mkO "PedestrianCommands" [("acc", Num 1); ("dpsi", Num 2)]); repeat split|].
  split; [exists (mkModel KDiffDrive (st3_obj (mk3 0 0 0)) "DiffDriveState" geo_default_diff_drive (PDiffDrive L L (-3, 3)) [] None false), L, L, (-3), 3, "differential_drive", 1, (2 / 10), (6 / 10), (mk3 0 0 0), (mkO "DiffDriveCommands" [("omega_l", Num 1); ("omega_r", Num 2)]); repeat split|].
  split; [exists (mkModel KSpacecraft (st6_obj "SpacecraftState" (mk6 0 0 0 1 0 0)) "SpacecraftState" (mkGeo (Some 2) (Some 1) 0 "royalblue" (GSpacecraft (mkSG 1 2 1) "spacecraft")) (PSpacecraft (-1, 1) (-2, 2) (-3, 3)) [] None false), (-1, 1), (-2, 2), (-3), 3, (mkMP (-1) 1 (-2) 2), (mkSG 1 2 1), "spacecraft", 2, 1, (mk6 0 0 0 1 0 0), (mkO "SpacecraftCommands" [("acc_left", Num 1); ("acc_right", Num 2)]); repeat split|].
  split; [exists (mkModel KDynObstacle (st6_obj "DynObstacleState" (mk6 0 0 0 1 0 0)) "DynObstacleState" (mkGeo (Some 2) (Some 1) 0 "royalblue" GObstacle) (PObstacle (-1, 1) (-2, 2) (-3, 3) L) [] None false), (-1, 1), (-2, 2), (-3), 3, L, (mkMP (-1) 1 (-2) 2), (mk6 0 0 0 1 0 0), (mkO "DynObstacleCommands" [("acc_x", Num 1); ("acc_y", Num 2); ("acc_psi", Num 3)]); repeat split|].
  split; [exists (mkModel KRocket (st8_obj "RocketState" "phi" (mk8 0 0 0 1 0 0 5 0)) "RocketState" geo_default_rocket (PRocket L L (rp_mv rp_default) (rp_CT rp_default) (rp_Flo rp_default, rp_Fhi rp_default) (rp_lo rp_default, rp_hi rp_default) (rp_dlo rp_default, rp_dhi rp_default)) [] None false), L, L, rp_default, rocket_default0, "rocket", 1, (mk8 0 0 0 1 0 0 5 0), (mkO "RocketCommands" [("F_left", Num 1); ("F_right", Num 2); ("dphi", Num 3)]); repeat split|].
  exists (mkModel KSpaceship (st8_obj "SpaceshipState" "delta" (mk8 0 0 0 1 0 0 5 0)) "SpaceshipState" geo_default_spaceship (PSpaceship L L (rp_mv sp_default) (rp_CT sp_default) (rp_Flo sp_default, rp_Fhi sp_default) (rp_lo sp_default, rp_hi sp_default) (rp_dlo sp_default, rp_dhi sp_default)) [] None false), L, L, sp_default, spaceship_default0, "spaceship", 1, (mk8 0 0 0 1 0 0 5 0), (mkO "SpaceshipCommands" [("thrust", Num 1); ("ddelta", Num 2)]); repeat split.
Qed.

(** ** C123  What a run does to a model *)

Theorem C123_laws :
  forall L C env, resolution_keeps_footprint (sim_world L C env) /\ reports_stamped (sim_world L C env).
Proof. exact C123_laws_pf. Qed.
Print Assumptions C123_laws.

Theorem C123_same_make : forall L C env (c : ctx (sim_world L C env)) m fuel sf p (m0 : model), valid_ctx c -> unused m -> (0 < dt (g_param (c_cfg c)))%Qc -> run fuel m c = Some (Ok sf) -> plays c p m0 ->
  exists mf : model, model_of sf p = Some mf /\ same_make m0 mf /\ (mo_collided m0 = true -> mo_collided mf = true) /\ (fits (mo_kind m0) (mo_state m0) -> fits (mo_kind m0) (mo_state mf)) /\
    (fits (mo_kind m0) (mo_state m0) -> forall t x, logged sf p t x -> fits (mo_kind m0) x).
Proof. exact C123_same_make_pf. Qed.
Print Assumptions C123_same_make.

Theorem C123_flag_means_report : forall L C env (c : ctx (sim_world L C env)) m fuel sf p (m0 mf : model), valid_ctx c -> unused m -> (0 < dt (g_param (c_cfg c)))%Qc -> run fuel m c = Some (Ok sf) ->
  plays c p m0 -> mo_collided m0 = false -> mo_kind m0 <> KDynObstacle -> model_of sf p = Some mf -> mo_collided mf = true -> exists r, In r (c_reports (cx sf)) /\ In p (r_players r).
Proof. exact C123_flag_means_report_pf. Qed.
Print Assumptions C123_flag_means_report.

(** The converse, for a name of the environment that no player has. *)
Theorem C123_report_means_flag : forall L C env (c : ctx (sim_world L C env)) m fuel sf p (mf : model) r, valid_ctx c -> unused m -> (0 < dt (g_param (c_cfg c)))%Qc -> run fuel m c = Some (Ok sf) ->
  c_reports c = [] -> ~ In env (akeys (c_models c)) -> In r (c_reports (cx sf)) -> In p (r_players r) -> model_of sf p = Some mf -> r_data r <> None -> mo_collided mf = true.
Proof. exact C123_report_means_flag_pf. Qed.
Print Assumptions C123_report_means_flag.

(** The players of an iteration collide whose footprints, of the models they have then,
    intersect for shapely. *)
Theorem C123_collisions : forall L C env (c : ctx (sim_world L C env)) s0 k s s', started c s0 -> (0 < dt (g_param (c_cfg c)))%Qc -> (forall f g, CollModel.intersects (li_shapely L) f g = CollModel.intersects (li_shapely L) g f) ->
  after s0 k s -> c_term (cx s) = false -> step s = Ok s' -> c_term (cx s') = false ->
  exists np, SimulatorSpec.pairs_of (ev s') = (SimulatorSpec.pairs_of (ev s) ++ map (fun pq => (fst pq, snd pq, time s')) np)%list /\
    forall p q (a b : model) fa fb, p <> q -> active s' p -> active s' q -> model_of s' p = Some a -> model_of s' q = Some b ->
      get_footprint (li_union L) (li_quad L) (li_valid L) a = Ok fa -> get_footprint (li_union L) (li_quad L) (li_valid L) b = Ok fb ->
      (In (p, q) np \/ In (q, p) np <-> CollModel.intersects (li_shapely L) fa fb = true).
Proof. exact C123_collisions_pf. Qed.
Print Assumptions C123_collisions.

(** Reports say in their data whom and when they are about. *)
Theorem C123_report_data : forall L C env (c : ctx (sim_world L C env)) m fuel sf r d, valid_ctx c -> unused m -> (0 < dt (g_param (c_cfg c)))%Qc -> run fuel m c = Some (Ok sf) ->
  c_reports c = [] -> ~ In env (akeys (c_models c)) -> In r (c_reports (cx sf)) -> r_data r = Some d -> map fst (rep_players (Loc := string) d) = r_players r /\ rep_time d = seconds (r_time r) /\
    exists p q, r_players r = [p; q] /\ p <> q /\ In p (akeys (c_models c)) /\ (In q (akeys (c_models c)) \/ q = env).
Proof. exact C123_report_data_pf. Qed.
Print Assumptions C123_report_data.

(** A car from the shelf hit by a block in the second iteration meets the hypotheses. *)
Example C123_ex : exists car car' rep sf, default_model Car (mk cVehicleState [0; 0; 0; 1; 0]) = Ok car /\ valid_ctx (scene car) /\ unused (new_simulator : simulator crash_world) /\ (0 < dt (g_param (c_cfg (scene car))))%Qc /\
  run 3 new_simulator (scene car) = Some (Ok sf) /\ plays (scene car) 1 car /\ mo_collided car = false /\ mo_kind car <> KDynObstacle /\ fits (mo_kind car) (mo_state car) /\ logged sf 1 (qz (-1)) (mo_state car : w_X crash_world) /\
  c_reports (scene car) = [] /\ ~ In 0%nat (akeys (c_models (scene car))) /\ model_of sf 1 = Some car' /\ mo_collided car' = true /\ In (as_report (qz (-1) + qz 1)%Qc rep) (c_reports (cx sf)) /\ r_data (as_report (qz (-1) + qz 1)%Qc rep) = Some rep.
Proof.
  destruct scene_runs as (car & car' & rogue' & rep & sf & E & K & Co & V & R & M1 & _ & Rs & _ & Cx & L1 & _ & F). exists car, car', rep, sf.
  split; [exact E|]. split; [exact V|]. split; [reflexivity|]. split; [reflexivity|]. split; [exact R|]. split; [reflexivity|]. split; [exact Co|]. split; [rewrite K; discriminate|]. split; [rewrite K; exact F|]. split; [exact L1|]. split; [reflexivity|].
  split; [intros [H|[H|[]]]; discriminate|]. split; [exact M1|]. split; [exact Cx|]. split; [rewrite Rs; left; reflexivity|reflexivity].
Qed.

(** ** C124, C125  limits along exact motions *)

(** Steering angles and nozzles stay within their limits at all times, whatever happens. *)
Theorem C124_held : forall L C env (c : ctx (sim_world L C env)) m fuel sf p (m0 : model) f lo hi, valid_ctx c -> unused m -> (0 < dt (g_param (c_cfg c)))%Qc -> run fuel m c = Some (Ok sf) -> exact (li_solve L) ->
  plays c p m0 -> held m0 f lo hi -> (forall vx acc d dd, mo_params m0 = PVehicle vx acc d dd -> 0 < dd) -> keeps (mo_state m0) f lo hi ->
  (exists mf : model, model_of sf p = Some mf /\ keeps (mo_state mf) f lo hi) /\ forall t x, logged sf p t x -> keeps x f lo hi.
Proof. exact C124_held_pf. Qed.
Print Assumptions C124_held.

(** Rockets and spaceships get lighter, but not lighter than they are without fuel. *)
Theorem C124_mass : forall L C env (c : ctx (sim_world L C env)) m fuel sf p (m0 : model) mv r0, valid_ctx c -> unused m -> (0 < dt (g_param (c_cfg c)))%Qc -> run fuel m c = Some (Ok sf) -> exact (li_solve L) ->
  plays c p m0 -> burns m0 mv -> has (mo_state m0) "m" r0 ->
  (forall t x, logged sf p t x -> exists r, has x "m" r /\ Rmin mv r0 <= r <= r0) /\
  (forall t x t' x' r r', logged sf p t x -> logged sf p t' x' -> (t <= t')%Qc -> has x "m" r -> has x' "m" r' -> r' <= r).
Proof. exact C124_mass_pf. Qed.
Print Assumptions C124_mass.

(** Speeds stay within their limits as long as the player is not in a collision. *)
Theorem C125_governed : forall L C env (c : ctx (sim_world L C env)) m fuel sf p (m0 : model) f lo hi, valid_ctx c -> unused m -> (0 < dt (g_param (c_cfg c)))%Qc -> run fuel m c = Some (Ok sf) -> exact (li_solve L) ->
  c_reports c = [] -> c_first c = None -> plays c p m0 -> mo_collided m0 = false -> governed m0 f lo hi -> keeps (mo_state m0) f lo hi ->
  forall t x, logged sf p t x -> ~ named_by sf p t -> (mo_kind m0 = KDynObstacle -> forall i t', In (p, i, t') (envs_of (ev sf)) -> (t < t')%Qc) -> keeps x f lo hi.
Proof. exact C125_governed_pf. Qed.
Print Assumptions C125_governed.

(** The rocket meets the hypotheses of the theorems on the nozzle and on the mass. *)
Example C124_ex : exists sf, valid_ctx (solo burning burn) /\ (0 < dt (g_param (c_cfg (solo burning burn))))%Qc /\ run 3 new_simulator (solo burning burn) = Some (Ok sf) /\ exact (li_solve (plain_library crash_site straight)) /\
  plays (solo burning burn) 1 burning /\ held burning "phi" (- (60 * PI / 180)) (60 * PI / 180) /\ keeps (mo_state burning) "phi" (- (60 * PI / 180)) (60 * PI / 180) /\ burns burning 2 /\ has (mo_state burning) "m" 5 /\
  exists x, logged sf 1 (qz (-1) + qz 1)%Qc x /\ has x "m" (5 - 1 / 50).
Proof.
  destruct (alone space tt burn burn burning _ _ (fun _ _ _ _ => eq_refl) (fun _ => eq_refl) eq_refl (fun _ _ => eq_refl) (fun _ => eq_refl) (eq_trans (f_equal (model_update straight burning burn) one_second) (burning_moves 0 5 ltac:(lra))) (eq_trans (f_equal (model_update straight _ burn) one_second) (burning_moves (0 + 1) (5 - 1 / 50) ltac:(lra)))) as (V & sf & R & _ & _ & _ & _ & L2).
  exists sf. split; [exact V|]. split; [reflexivity|]. split; [exact R|]. split; [exact straight_exact|]. split; [reflexivity|]. split; [split; reflexivity|].
  split; [exists 0; split; [reflexivity|pose proof PI_RGT_0; lra]|]. split; [split; [reflexivity|cbn; lra]|]. split; [reflexivity|]. eexists. split; [exact L2|reflexivity].
Qed.

(** The car those of the theorems on steering and on speeds. *)
Example C125_ex : exists sf, valid_ctx (solo rolling coast) /\ (0 < dt (g_param (c_cfg (solo rolling coast))))%Qc /\ run 3 new_simulator (solo rolling coast) = Some (Ok sf) /\ exact (li_solve (plain_library crash_site straight)) /\
  plays (solo rolling coast) 1 rolling /\ mo_collided rolling = false /\ c_reports (solo rolling coast) = [] /\ c_first (solo rolling coast) = None /\
  held rolling "delta" (- (1)) 1 /\ keeps (mo_state rolling) "delta" (- (1)) 1 /\ governed rolling "vx" (mp_vlo (vp_m vp_rcar)) (mp_vhi (vp_m vp_rcar)) /\ keeps (mo_state rolling) "vx" (mp_vlo (vp_m vp_rcar)) (mp_vhi (vp_m vp_rcar)) /\
  (forall t, ~ named_by sf 1 t) /\ exists x, logged sf 1 (qz (-1) + qz 1)%Qc x /\ has x "x" (0 + 10).
Proof.
  destruct (alone space tt coast coast rolling _ _ (fun _ _ _ _ => eq_refl) (fun _ => eq_refl) eq_refl (fun _ _ => eq_refl) (fun _ => eq_refl) (eq_trans (f_equal (model_update straight rolling coast) one_second) (rolling_moves 0)) (eq_trans (f_equal (model_update straight _ coast) one_second) (rolling_moves (0 + 10)))) as (V & sf & R & _ & Rp & _ & _ & L2).
  exists sf. split; [exact V|]. split; [reflexivity|]. split; [exact R|]. split; [exact straight_exact|]. split; [reflexivity|]. split; [reflexivity|]. split; [reflexivity|]. split; [reflexivity|]. split; [repeat split|].
  split; [exists 0; split; [reflexivity|lra]|]. split; [split; reflexivity|]. split; [exists 10; split; [reflexivity|cbn; lra]|]. split; [|eexists; split; [exact L2|reflexivity]].
  intros t (r & Ir & _). rewrite Rp in Ir. destruct Ir.
Qed.

(** ** C126  a collision among free bodies *)

(** In one iteration all the collisions among free bodies together keep the linear and the
    angular momentum of all models and do not add kinetic energy. *)
Theorem C126_conserved : forall L C env (c : ctx (sim_world L C env)) s0 k s s', started c s0 -> (0 < dt (g_param (c_cfg c)))%Qc -> after s0 k s -> c_term (cx s) = false -> step s = Ok s' ->
  (forall p (m : model), model_of s p = Some m -> free_body m /\ fits (mo_kind m) (mo_state m)) -> envs_of (ev s') = envs_of (ev s) ->
  (forall r d, In r (c_reports (cx s')) -> r_time r = time s' -> r_data r = Some d -> rep_normal d <> None /\ rep_point d <> None) ->
  exists ms : list (player * model), akeys ms = akeys (c_models (cx s)) /\ (forall p m, dget ms p = Some m <-> moved s s' p m) /\
    total_momentum (c_models (cx s')) = total_momentum ms /\ (forall o, total_spin o (c_models (cx s')) = total_spin o ms) /\
    ((forall p (m : model), model_of s p = Some m -> 0 <= ge_e (mo_geo m) <= 1) -> total_energy (c_models (cx s')) <= total_energy ms).
Proof. exact C126_conserved_pf. Qed.
Print Assumptions C126_conserved.

(** Two moving blocks that run into each other meet the hypotheses, also those of
    C123_collisions. *)
Example C126_ex : exists s0 s (a' b' : model), started rink s0 /\ (0 < dt (g_param (c_cfg rink)))%Qc /\ after s0 0 s0 /\ c_term (cx s0) = false /\ step s0 = Ok s /\
  (forall p (m : model), model_of s0 p = Some m -> free_body m /\ fits (mo_kind m) (mo_state m)) /\ envs_of (ev s) = envs_of (ev s0) /\
  (forall r d, In r (c_reports (cx s)) -> r_time r = time s -> r_data r = Some d -> rep_normal d <> None /\ rep_point d <> None) /\
  (forall p (m : model), model_of s0 p = Some m -> 0 <= ge_e (mo_geo m) <= 1) /\ c_models (cx s) = [(1%nat, a'); (2%nat, b')] /\ mo_collided a' = true /\ mo_collided b' = true /\ total_momentum (c_models (cx s0)) = (-400, 0) /\
  (forall f g, CollModel.intersects crash_site f g = CollModel.intersects crash_site g f) /\ c_term (cx s) = false /\ active s 1 /\ active s 2 /\
  (exists fa, get_footprint joined_points 16 any_shape a' = Ok fa) /\ exists fb, get_footprint joined_points 16 any_shape b' = Ok fb.
Proof.
  destruct (a_block (15 / 10) 0 1 900 1000 (8 / 10)) as (Ha & Ia & Sa & Wa & Ma & xa & la & La); [lra|lra|]. fold slider in *.
  destruct (a_block (21 / 10) 0 (-1) 1300 1600 (5 / 10)) as (Hb & Ib & Sb & Wb & Mb & xb & lb & Lb); [lra|lra|]. fold rogue in *.
  assert (N1 : vdot ((1, 0) : vec) (1, 0) = 1) by (unfold vdot; cbn; lra).
  destruct (happens (18 / 10, 0) (1, 0) (4 / 10) slider rogue (1, 0) 0 (-1, 0) 0 (15 / 10, 0) 0 (21 / 10, 0) 0 la lb xa xb N1 ltac:(lra) ltac:(unfold vdot; cbn; lra) Ia Ib Ma Mb Sa Sb La Lb) as (ms' & rep & na & nb & C).
  { unfold contact, vdot, vsub. cbn [fst snd]. lra. }
  pose proof (crash_resolves crash_site idle _ _ _ _ _ _ _ _ _ t_zero C) as Re.
  assert (Fa : free_body slider /\ fits (mo_kind slider) (mo_state slider)).
  { split; [split; [right; left; reflexivity|exists 900, 1000; exact Wa]|]. split; [|intros _; exact Ia]. intros f If. cbn in If. repeat (destruct If as [<-|If]; [eexists; reflexivity|]). destruct If. }
  assert (Fb : free_body rogue /\ fits (mo_kind rogue) (mo_state rogue)).
  { split; [split; [right; left; reflexivity|exists 1300, 1600; exact Wb]|]. split; [|intros _; exact Ib]. intros f If. cbn in If. repeat (destruct If as [<-|If]; [eexists; reflexivity|]). destruct If. }
  destruct (resolve_cases _ _ _ _ _ _ _ _ _ _ _ Re) as [(_ & _ & [H|[e H]])|(Hna & Hnb & _)]; try discriminate H.
  destruct (one_step crash_world tt drift drift drift drift slider rogue na nb (as_report (qz (-1) + qz 1)%Qc rep)) as (s0 & s & S & St & T & M0 & M1 & Rp & En & T1 & A1); try reflexivity.
  - exact Re.
  - assert (Mod : forall p (m : model), model_of s0 p = Some m -> m = slider \/ m = rogue).
    { intros p m Hm. unfold model_of in Hm. rewrite M0 in Hm. unfold aget in Hm. destruct (Nat.eqb 1 p); [left; congruence|]. destruct (Nat.eqb 2 p); [right; congruence|discriminate]. }
    exists s0, s, na, nb. split; [exact S|]. split; [reflexivity|]. split; [constructor|]. split; [exact T|]. split; [exact St|]. split; [|split; [exact En|split; [|split; [|split; [exact M1|split; [apply Hna|split; [apply Hnb|split; [|split; [intros f g; reflexivity|split; [exact T1|split; [unfold active; rewrite A1; left; reflexivity|split; [unfold active; rewrite A1; right; left; reflexivity|split]]]]]]]]]]]].
    + intros p m Hm. destruct (Mod p m Hm) as [-> | ->]; assumption.
    + intros r d Hr _ Hd. rewrite Rp in Hr. destruct Hr as [<-|[]]. cbn in Hd. assert (d = rep) as -> by congruence. destruct C as (_ & _ & Cn & Cp & _). rewrite Cn, Cp. split; discriminate.
    + intros p m Hm. destruct (Mod p m Hm) as [-> | ->]; cbn; lra.
    + rewrite M0. unfold total_momentum, sum_up. cbn [fold_right snd]. assert (E1 : velocity_of slider = ((1, 0), 0)) by (unfold velocity_of; unfold ImpactSpec.moves in Ma; rewrite Ma; reflexivity). assert (E2 : velocity_of rogue = ((-1, 0), 0)) by (unfold velocity_of; unfold ImpactSpec.moves in Mb; rewrite Mb; reflexivity).
      rewrite E1, E2. unfold momentum, mass_of, vscale, vadd. cbn. f_equal; lra.
    + destruct Hna as (_ & Q & _). eexists. rewrite (stays_footprint _ _ _ _ _ Q). exact (C115_obstacle_pf joined_points 16 any_shape _ _ _ Sa eq_refl).
    + destruct Hnb as (_ & Q & _). eexists. rewrite (stays_footprint _ _ _ _ _ Q). exact (C115_obstacle_pf joined_points 16 any_shape _ _ _ Sb eq_refl).
Qed.
