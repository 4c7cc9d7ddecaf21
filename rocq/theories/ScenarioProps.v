(* Generated from tools/Scenario.src by tools/gen_props.py. *)
(** What the import of scenarios guarantees. *)
From Coq Require Import String Reals Lra Psatz List Bool ZArith Lia Arith.
From Verif Require Import Base R2 GeoModel GeoProofs LaneModel LaneProofs BodyModel BodySpec BodyProofs ScenarioModel ScenarioSpec ScenarioProofs.
Import ListNotations.
Open Scope R_scope.
Local Open Scope string_scope.
From Verif Require Import ScenarioMain.

(** ** C68 The import of a scenario *)

(** Players and models have the same names, each once, each the name of an obstacle; the
    players are exactly the obstacles that are not parked and have a supported type, and
    their models start where the obstacles start. *)
Theorem C68_players : forall mz net dynamic static ego am c, get_scenario_commonroad_replica mz net dynamic static ego am = Ok c ->
  akeys (c_players c) = akeys (c_models c) /\ NoDup (akeys (c_players c)) /\
  (forall k, In k (akeys (c_players c)) -> exists i o, nth_error dynamic i = Some o /\ player_name ego i k) /\
  forall i o k, nth_error dynamic i = Some o -> player_name ego i k ->
    (In k (akeys (c_players c)) <-> ~ parked o /\ supported o) /\
    forall m, aget String.eqb (c_models c) k = Some m -> starts_as o m.
Proof. exact C68_players_pf. Qed.
Print Assumptions C68_players.

(** Every player follows the lane inferred for its obstacle; only the one called Ego is red. *)
Theorem C68_agents : forall mz net dynamic static ego am c i o k m, get_scenario_commonroad_replica mz net dynamic static ego am = Ok c ->
  nth_error dynamic i = Some o -> player_name ego i k -> aget String.eqb (c_models c) k = Some m ->
  (exists agent, aget String.eqb (c_players c) k = Some agent /\ infer_lane_from_dyn_obs mz net o = Ok agent) /\
  exists p psi vx de g mi color, m = Vehicle p psi vx de g mi color /\ (color = "firebrick" <-> ego = Some (p_i i)).
Proof. exact C68_agents_pf. Qed.
Print Assumptions C68_agents.

(** The static obstacles are the parked ones, placed at their initial poses, and then the
    static obstacles of the scenario. *)
Theorem C68_statics : forall mz net dynamic static ego am c, get_scenario_commonroad_replica mz net dynamic static ego am = Ok c ->
  exists ps, keeps parked dynamic ps /\
    c_statics c = (map (fun o => (do_type o, map (in_world (do_position o) (do_orientation o)) (do_shape o))) ps ++ map (fun s => (so_type s, so_shape s)) static)%list.
Proof. exact C68_statics_pf. Qed.
Print Assumptions C68_statics.

(** But those are not placed at their poses. *)
Theorem C68_static_pose_refuted : forall mz net s, let c := mkSO (OTHER "parkedVehicle") [(2, 1); (-2, 1); (-2, -1); (2, -1)] (10, 20) 0 in
  exists ctx, get_scenario_commonroad_replica mz net [] [c] s false = Ok ctx /\
    ~ In (so_type c, map (in_world (so_position c) (so_orientation c)) (so_shape c)) (c_statics ctx).
Proof. exact C68_static_pose_refuted_pf. Qed.
Print Assumptions C68_static_pose_refuted.

(** A pedestrian that walks makes the import fail. *)
Theorem C68_pedestrian_refuted : forall mz net dynamic static ego am i o, nth_error dynamic i = Some o -> do_type o = PEDESTRIAN -> ~ parked o ->
  forall c, get_scenario_commonroad_replica mz net dynamic static ego am <> Ok c.
Proof. exact C68_pedestrian_refuted_pf. Qed.
Print Assumptions C68_pedestrian_refuted.

(** The import succeeds if every obstacle has a trajectory with a state, and every one that
    moves has an unsupported type or is a rectangular vehicle for which a lane is found. *)
Theorem C68_succeeds_partial : forall mz net dynamic static ego am,
  (forall o, In o dynamic -> exists states last, do_states o = Some (states ++ [last])%list /\
    (parked o \/ ~ supported o \/ (vehicle o /\ (exists le wi, do_rectangle o = Some (le, wi) /\ le <> 0) /\ exists lane, infer_lane_from_dyn_obs mz net o = Ok lane))) ->
  exists c, get_scenario_commonroad_replica mz net dynamic static ego am = Ok c.
Proof. exact C68_succeeds_partial_pf. Qed.
Print Assumptions C68_succeeds_partial.

(** No missions are assigned, even if they are asked for. *)
Theorem C68_missions_refuted : forall mz net dynamic static ego c, get_scenario_commonroad_replica mz net dynamic static ego true = Ok c -> c_missions c = [].
Proof. exact C68_missions_refuted_pf. Qed.
Print Assumptions C68_missions_refuted.

(** The import gives no Ego, and no error, when the named obstacle is parked or not
    supported or there is none. *)
Theorem C68_ego_refuted : forall mz net dynamic static name am c, get_scenario_commonroad_replica mz net dynamic static (Some name) am = Ok c ->
  (forall i o, nth_error dynamic i = Some o -> name = p_i i -> parked o \/ ~ supported o) -> ~ In "Ego" (akeys (c_players c)).
Proof. exact C68_ego_refuted_pf. Qed.
Print Assumptions C68_ego_refuted.

(** A vehicle that drives round and comes back is taken for a parked one, wherever it has
    been in between. *)
Theorem C68_loop_refuted : forall mz net ego am o l mid last, vehicle o -> do_states o = Some (l ++ [mid; last])%list -> st_position last = do_position o ->
  exists c, get_scenario_commonroad_replica mz net [o] [] ego am = Ok c /\ c_players c = [] /\ c_statics c = [(do_type o, map (in_world (do_position o) (do_orientation o)) (do_shape o))].
Proof. exact C68_loop_refuted_pf. Qed.
Print Assumptions C68_loop_refuted.

Example C68_ex : forall mz, exists c, get_scenario_commonroad_replica mz ex_net [ex_o CAR 9; ex_o BUS 0; ex_o (OTHER "train") 0; ex_o CAR (-5)] [] (Some "P3") false = Ok c /\
  In "P1" (akeys (c_players c)) /\ In "Ego" (akeys (c_players c)) /\ ~ In "P2" (akeys (c_players c)) /\ length (c_statics c) = 1%nat.
Proof.
  intro mz. destruct (C68_succeeds_partial mz ex_net [ex_o CAR 9; ex_o BUS 0; ex_o (OTHER "train") 0; ex_o CAR (-5)] [] (Some "P3") false) as [c E].
  - intros o [<-|[<-|[<-|[<-|[]]]]]; exists [mkS (1, 0) 0], (mkS (9, 0) 0); (split; [reflexivity|]).
    + left. apply ex_parked.
    + right. right. split; [cbn; tauto|]. split; [exists 4, 2; split; [reflexivity|lra]|]. eexists. reflexivity.
    + right. left. unfold supported. cbn. intro H. decompose [or] H; try discriminate; assumption.
    + right. right. split; [cbn; tauto|]. split; [exists 4, 2; split; [reflexivity|lra]|]. eexists. reflexivity.
  - exists c. split; [exact E|]. destruct (C68_players _ _ _ _ _ _ _ E) as (_ & _ & _ & I). split; [|split; [|split]].
    + apply (I 1%nat (ex_o BUS 0)); [reflexivity|right; split; [discriminate|reflexivity]|]. split; [apply ex_moves; lra|cbn; tauto].
    + apply (I 3%nat (ex_o CAR (-5))); [reflexivity|left; split; reflexivity|]. split; [apply ex_moves; lra|cbn; tauto].
    + intro K. apply (I 2%nat (ex_o (OTHER "train") 0)) in K; [|reflexivity|right; split; [discriminate|reflexivity]]. destruct K as [_ K]. unfold supported in K. cbn in K. decompose [or] K; try discriminate; assumption.
    + destruct (C68_statics _ _ _ _ _ _ _ E) as (ps & K & ->). rewrite app_length, map_length. cbn [map length]. rewrite Nat.add_0_r. inversion_clear K as [|? ? ? _ K1|? ? ? N _]; [|exfalso; exact (N (ex_parked CAR))].
      inversion_clear K1 as [|? ? ? P _|? ? ? _ K2]; [exfalso; revert P; apply ex_moves; lra|]. inversion_clear K2 as [|? ? ? P _|? ? ? _ K3]; [exfalso; revert P; apply ex_moves; lra|]. inversion_clear K3 as [|? ? ? P _|? ? ? _ K4]; [exfalso; revert P; apply ex_moves; lra|]. inversion K4. reflexivity.
Qed.

(** ** C88 The lane of an imported vehicle *)

(** The lane is a candidate if there is one, and otherwise the lane along the predicted
    trajectory; among the candidates it is one with the least difference between the
    orientation of the vehicle and the angle of the lane. *)
Theorem C88_lane : forall mz net o states last lane, do_states o = Some (states ++ [last])%list -> infer_lane_from_dyn_obs mz net o = Ok lane ->
  let final := lanelets_at net (st_position last) in
  ((forall c, ~ candidate net (do_position o) final c) -> map (fun c => (t_p (cp_q c), t_theta (cp_q c), 2 * cp_r c)) lane = map (fun s => (st_position s, st_orientation s, 3)) (states ++ [last])) /\
  (forall c, candidate net (do_position o) final c -> candidate net (do_position o) final lane) /\
  forall c a, candidate net (do_position o) final c -> closest_angle mz c (do_position o) = Ok a ->
    exists a', closest_angle mz lane (do_position o) = Ok a' /\ Rabs (do_orientation o - a') <= Rabs (do_orientation o - a).
Proof. exact C88_lane_pf. Qed.
Print Assumptions C88_lane.

(** A lane through a lanelet on which the vehicle ends is a candidate, whatever comes after
    it on the way. *)
Theorem C88_complete : forall net p i merged id l r c parts f final lane, In i (lanelets_at net p) -> merged_from net i = Ok merged -> In (id, (l, r, c)) merged ->
  id_of_parts id parts -> In f parts -> In f final -> from_vertices l r c = Ok lane -> candidate net p final lane.
Proof. exact C88_complete_pf. Qed.
Print Assumptions C88_complete.

(** A lane is inferred for every obstacle with a trajectory if the network gives lanes
    with as many left and right as centre points, and at least one. *)
Theorem C88_defined : forall mz net o states last, do_states o = Some (states ++ [last])%list ->
  (forall i, In i (lanelets_at net (do_position o)) -> exists merged, merged_from net i = Ok merged /\
    forall id l r c, In (id, (l, r, c)) merged -> c <> [] /\ length l = length c /\ length r = length c) ->
  exists lane, infer_lane_from_dyn_obs mz net o = Ok lane.
Proof. exact C88_defined_pf. Qed.
Print Assumptions C88_defined.

(** The lane at a position is the chosen merged lane of the chosen lanelet there; off the
    road there is none, and a choice that does not exist is an error. *)
Theorem C88_position : forall net p i j,
  (lanelets_at net p = [] -> dglane_from_position net p i j = Err PyAssertionError) /\
  (forall lane, dglane_from_position net p i j = Ok lane -> exists id merged mid l r c, nth_error (lanelets_at net p) i = Some id /\ merged_from net id = Ok merged /\ nth_error merged j = Some (mid, (l, r, c)) /\ from_vertices l r c = Ok lane) /\
  (forall id merged, lanelets_at net p <> [] -> nth_error (lanelets_at net p) i = Some id -> merged_from net id = Ok merged -> nth_error merged j = None -> dglane_from_position net p i j = Err PyIndexError) /\
  (lanelets_at net p <> [] -> nth_error (lanelets_at net p) i = None -> dglane_from_position net p i j = Err PyIndexError).
Proof. exact C88_position_pf. Qed.
Print Assumptions C88_position.

(** A lane that does not go near the end of the trajectory is a candidate if the digits
    happen to occur: here the lane consists of lanelet 12 and the vehicle ends on lanelet
    2. *)
Theorem C88_wrong_lane_refuted : forall mz v orientation, let net := mkNet (fun p => if Req_EM_T (fst p) 0 then [12%Z] else [2%Z]) (fun i => Ok [(i, ([(0, 2); (1, 2)], [(0, -2); (1, -2)], [(0, 0); (1, 0)]))]) in
  exists lane, infer_lane_from_dyn_obs mz net (mkDO CAR (Some (4, 2)) [] (0, 0) orientation v (Some [mkS (100, 50) 0])) = Ok lane /\ id_of_parts 12 [12%Z] /\ ~ In 2%Z [12%Z] /\
    forall c, In c lane -> fst (t_p (cp_q c)) <= 1.
Proof. exact C88_wrong_lane_refuted_pf. Qed.
Print Assumptions C88_wrong_lane_refuted.

(** Angles are not compared modulo a full turn: for a vehicle that drives west, a lane that
    leads south is preferred to one that leads west. *)
Theorem C88_angle_refuted : forall mz v, let west := ([(0, -1); (-9, -1)], [(0, 1); (-9, 1)], [(0, 0); (-9, 0)]) in let south := ([(1, 0); (1, -9)], [(-1, 0); (-1, -9)], [(0, 0); (0, -9)]) in
  let net := mkNet (fun _ => [1%Z]) (fun _ => Ok [(1%Z, west); (1%Z, south)]) in
  let o := mkDO CAR (Some (4, 2)) [] (0, 0) (- PI + 1 / 10) v (Some [mkS (-9, 0) PI]) in
  infer_lane_from_dyn_obs mz net o = (let '(l, r, c) := south in from_vertices l r c) /\
  exists w, (let '(l, r, c) := west in from_vertices l r c) = Ok w /\ candidate net (0, 0) [1%Z] w /\ forall c, In c w -> cos (t_theta (cp_q c) - (- PI + 1 / 10)) = cos (1 / 10).
Proof. exact C88_angle_refuted_pf. Qed.
Print Assumptions C88_angle_refuted.

Example C88_ex : forall mz, exists lane, infer_lane_from_dyn_obs mz (mkNet (fun _ => [123%Z]) (fun i => Ok [(i, ([(0, 2); (1, 2)], [(0, -2); (1, -2)], [(0, 0); (1, 0)]))])) (ex_o CAR 0) = Ok lane /\ length lane = 2%nat /\ id_of_parts 123 [1%Z; 23%Z].
Proof. intro mz. eexists. split; [reflexivity|]. split; reflexivity. Qed.

(** ** C89 The body of an imported vehicle *)

(** The model has the initial position, orientation and speed of the obstacle. *)
Theorem C89_state : forall o color m, infer_model_from_cr_dyn_obstacle o color = Done m -> starts_as o m.
Proof. exact C89_state_pf. Qed.
Print Assumptions C89_state.

(** The axles are 0.35 of the length from the centre, in front of it and behind it; the
    mass and the inertia of cars, trucks and buses are positive, and grow with the area. *)
Theorem C89_body : forall o color p psi vx de g mi col le wi, infer_model_from_cr_dyn_obstacle o color = Done (Vehicle p psi vx de g mi col) -> do_rectangle o = Some (le, wi) -> 0 < le -> 0 < wi ->
  col = color /\ g_lf g = 35 / 100 * le /\ g_lr g = g_lf g /\ g_w_half g = 475 / 1000 * wi /\ (g_type g = if match do_type o with BICYCLE => true | _ => false end then "bicycle" else "car") /\
  (do_type o <> BICYCLE -> exists m i, mi = Some (m, i) /\ 0 < m /\ 0 < i /\ forall o' color' p' psi' vx' de' g' m' i' col' le' wi', infer_model_from_cr_dyn_obstacle o' color' = Done (Vehicle p' psi' vx' de' g' (Some (m', i')) col') -> do_rectangle o' = Some (le', wi') -> le * wi < le' * wi' -> m < m').
Proof. exact C89_body_pf. Qed.
Print Assumptions C89_body.

(** The body of the model has another size than the obstacle, unless it happens to be 4.8 m
    long and 4 m wide (a bicycle: 3 m by 2 m). *)
Theorem C89_size_refuted : forall o color p psi vx de g mi col le wi, infer_model_from_cr_dyn_obstacle o color = Done (Vehicle p psi vx de g mi col) -> do_rectangle o = Some (le, wi) ->
  exists x0 x1 y, outline g = Ok (box_ring x0 x1 y) /\
    (do_type o <> BICYCLE -> x1 - x0 = 875 / 1000 * le + 6 / 10 /\ y - (- y) = 95 / 100 * wi + 2 / 10 /\ (x1 - x0 = le <-> le = 48 / 10) /\ (y - (- y) = wi <-> wi = 4)) /\
    (do_type o = BICYCLE -> x1 - x0 = 7 / 10 * le + 9 / 10 /\ y - (- y) = 95 / 100 * wi + 1 / 10 /\ (x1 - x0 = le <-> le = 3) /\ (y - (- y) = wi <-> wi = 2)).
Proof. exact C89_size_refuted_pf. Qed.
Print Assumptions C89_size_refuted.

(** The initial steering angle is the change of the orientation over the first step, not
    modulo a full turn, over the wheelbase: for a car of 4 m it can be more than 2 rad,
    above any limit for the steering. *)
Theorem C89_steering_refuted : forall color p vx, let o := mkDO CAR (Some (4, 2)) [] p PI vx (Some [mkS p (- PI + 1 / 10)]) in
  exists g mi de, infer_model_from_cr_dyn_obstacle o color = Done (Vehicle p PI vx de g mi color) /\ de < - 2.
Proof. exact C89_steering_refuted_pf. Qed.
Print Assumptions C89_steering_refuted.

Example C89_ex : exists m, infer_model_from_cr_dyn_obstacle (ex_o TRUCK 0) "red" = Done m /\ starts_as (ex_o TRUCK 0) m /\ exists g mi de, m = Vehicle (0, 0) 0 5 de g mi "red" /\ de = 0.
Proof.
  unfold infer_model_from_cr_dyn_obstacle. cbn [ex_o do_type is_vehicle do_rectangle state_list do_states bind item nth_error lift cbind st_orientation do_orientation do_position do_velocity]. destruct (Req_EM_T (4 * (7 / 10)) 0); [lra|]. eexists. split; [reflexivity|]. split; [cbn; auto 9|]. do 3 eexists. split; [reflexivity|]. lra.
Qed.

(** ** C90 Scenario files *)

(** The file is looked for in the whole tree, with the ending .xml if the name has none;
    it is found if and only if it is there. *)
Theorem C90_found : forall name walk path, scenario_file name walk = Ok path ->
  exists file root files, (file = name \/ file = (name ++ ".xml")%string) /\ ends_with file ".xml" = true /\ In (root, files) walk /\ In file files /\ path = (root ++ "/" ++ file)%string.
Proof. exact C90_found_pf. Qed.
Print Assumptions C90_found.

Theorem C90_complete : forall name walk root files, ends_with name ".xml" = true -> In (root, files) walk -> In name files -> exists path, scenario_file name walk = Ok path.
Proof. exact C90_complete_pf. Qed.
Print Assumptions C90_complete.

(** Of several files with the name, the one in the last directory of the walk is taken. *)
Theorem C90_last : forall name w1 root files w2, ends_with name ".xml" = true -> In name files -> (forall r f, In (r, f) w2 -> ~ In name f) -> scenario_file name (w1 ++ (root, files) :: w2) = Ok (root ++ "/" ++ name)%string.
Proof. exact C90_last_pf. Qed.
Print Assumptions C90_last.

(** The name without the ending means the same file. *)
Theorem C90_ending : forall name walk, ends_with name ".xml" = false -> scenario_file name walk = scenario_file (name ++ ".xml") walk.
Proof. exact C90_ending_pf. Qed.
Print Assumptions C90_ending.

(** Directories do not disambiguate: a name with a directory is not found. *)
Theorem C90_path_refuted : scenario_file "USA/a.xml" [("scenarios", []); ("scenarios/USA", ["a.xml"])] = Err PyOther.
Proof. exact C90_path_refuted_pf. Qed.
Print Assumptions C90_path_refuted.

Example C90_ex : scenario_file "a" [("s/x", ["a.xml"; "b.xml"]); ("s/y", ["a.xml"]); ("s/z", ["c.xml"])] = Ok "s/y/a.xml".
Proof. reflexivity. Qed.

(** ** C91 The obstacles of a DgScenario *)

(** The obstacles are the given ones and then the boundaries of the road, which are added
    if they are asked for and there is a scenario; the tree has the shapes of all, in the
    same order. *)
Theorem C91_obstacles : forall (Scen Obs Shape : Type) (shape_of : Obs -> Shape) of_bound bounds (scenario : option Scen) given use buffer obs tree,
  dg_scenario shape_of of_bound bounds scenario given use buffer = Ok (obs, tree) ->
  (length tree = length obs /\ forall k o, nth_error obs k = Some o -> nth_error tree k = Some (shape_of o)) /\
  exists extra, obs = (match given with Some l => l | None => [] end ++ extra)%list /\
    (use = false \/ scenario = None -> extra = []) /\
    (forall s, use = true -> scenario = Some s -> 0 <= buffer /\ exists bs, bounds s buffer = Ok bs /\ extra = map of_bound bs).
Proof. exact C91_obstacles_pf. Qed.
Print Assumptions C91_obstacles.

(** A negative width of the boundaries is an error, but only if they are used. *)
Theorem C91_negative : forall (Scen Obs Shape : Type) (shape_of : Obs -> Shape) of_bound bounds (s : Scen) given buffer, buffer < 0 ->
  dg_scenario shape_of of_bound bounds (Some s) given true buffer = Err PyAssertionError /\ exists r, dg_scenario shape_of of_bound bounds (Some s) given false buffer = Ok r.
Proof. exact C91_negative_pf. Qed.
Print Assumptions C91_negative.

Example C91_ex : dg_scenario (fun n : nat => (n + 1)%nat) (fun s => (s * 10)%nat) (fun (_ : unit) _ => Ok [1; 2]%nat) (Some tt) (Some [7]%nat) true (2 / 10) = Ok ([7; 10; 20]%nat, [8; 11; 21]%nat).
Proof. unfold dg_scenario. rewrite (proj2 (leb_iff 0 (2 / 10))) by lra. reflexivity. Qed.
