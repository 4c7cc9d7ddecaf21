(* Generated from tools/Scenario.src by tools/gen_props.py. *)
(** What the import of scenarios guarantees. *)
From Coq Require Import String Reals Lra Psatz List Bool ZArith Lia Arith.
From Verif Require Import Base R2 GeoModel GeoProofs LaneModel LaneProofs BodyModel BodySpec BodyProofs ScenarioModel ScenarioSpec ScenarioProofs.
Import ListNotations.
Open Scope R_scope.
Local Open Scope string_scope.

(** Players and models have the same names, each once, each the name of an obstacle; the
    players are exactly the obstacles that are not parked and have a supported type, and
    their models start where the obstacles start. *)
Lemma C68_players_pf : forall mz net dynamic static ego am c, get_scenario_commonroad_replica mz net dynamic static ego am = Ok c ->
  akeys (c_players c) = akeys (c_models c) /\ NoDup (akeys (c_players c)) /\
  (forall k, In k (akeys (c_players c)) -> exists i o, nth_error dynamic i = Some o /\ player_name ego i k) /\
  forall i o k, nth_error dynamic i = Some o -> player_name ego i k ->
    (In k (akeys (c_players c)) <-> ~ parked o /\ supported o) /\
    forall m, aget String.eqb (c_models c) k = Some m -> starts_as o m.
Proof.
  intros mz net dynamic static ego am c E. apply replica_inv in E as (st & (I1 & I2 & I3 & I4 & I5 & _) & _ & _). split; [exact I1|]. split; [exact I2|]. split.
  - intros k K. destruct (I3 k K) as (i & Hi & ->). destruct (nth_error dynamic i) as [o|] eqn:N; [|apply nth_error_None in N; lia]. exists i, o. split; [exact N|apply is_name_spec].
  - intros i o k N P. rewrite (name_eq _ _ _ P). split; [exact (I4 i o N)|]. intros m M. assert (K : In (is_name ego i) (akeys (c_players c))) by (rewrite I1; apply aget_keys; congruence). apply (I4 i o N) in K as [NP SU]. destruct (I5 i o N NP SU) as (m' & agent & _ & M' & _ & SA & _). congruence.
Qed.

(** Every player follows the lane inferred for its obstacle; only the one called Ego is red. *)
Lemma C68_agents_pf : forall mz net dynamic static ego am c i o k m, get_scenario_commonroad_replica mz net dynamic static ego am = Ok c ->
  nth_error dynamic i = Some o -> player_name ego i k -> aget String.eqb (c_models c) k = Some m ->
  (exists agent, aget String.eqb (c_players c) k = Some agent /\ infer_lane_from_dyn_obs mz net o = Ok agent) /\
  exists p psi vx de g mi color, m = Vehicle p psi vx de g mi color /\ (color = "firebrick" <-> ego = Some (p_i i)).
Proof.
  intros mz net dynamic static ego am c i o k m E N P M. apply replica_inv in E as (st & (I1 & I2 & I3 & I4 & I5 & _) & _ & _). pose proof (name_eq _ _ _ P) as ->. assert (K : In (is_name ego i) (akeys (c_players c))) by (rewrite I1; apply aget_keys; congruence). apply (I4 i o N) in K as [NP SU].
  destruct (I5 i o N NP SU) as (m' & agent & A & M' & _ & _ & LN & p & psi & vx & de & g & mi & CO). split; [exists agent; auto|]. rewrite M in M'. injection M' as <-. do 7 eexists. split; [exact CO|]. destruct P as [[P1 P2]|[P1 P2]]; rewrite P2.
  - cbn. tauto.
  - destruct (String.eqb_spec (p_i i) "Ego") as [X|X]; [exfalso; exact (p_i_ego _ X)|]. split; [discriminate|contradiction].
Qed.

(** The static obstacles are the parked ones, placed at their initial poses, and then the
    static obstacles of the scenario. *)
Lemma C68_statics_pf : forall mz net dynamic static ego am c, get_scenario_commonroad_replica mz net dynamic static ego am = Ok c ->
  exists ps, keeps parked dynamic ps /\
    c_statics c = (map (fun o => (do_type o, map (in_world (do_position o) (do_orientation o)) (do_shape o))) ps ++ map (fun s => (so_type s, so_shape s)) static)%list.
Proof.
  intros mz net dynamic static ego am c E. apply replica_inv in E as (st & (_ & _ & _ & _ & _ & ps & K & ->) & -> & _). exists ps. auto.
Qed.

(** But those are not placed at their poses. *)
Lemma C68_static_pose_refuted_pf : forall mz net s, let c := mkSO (OTHER "parkedVehicle") [(2, 1); (-2, 1); (-2, -1); (2, -1)] (10, 20) 0 in
  exists ctx, get_scenario_commonroad_replica mz net [] [c] s false = Ok ctx /\
    ~ In (so_type c, map (in_world (so_position c) (so_orientation c)) (so_shape c)) (c_statics ctx).
Proof.
  intros mz net s c. eexists. split; [reflexivity|]. cbn [c_statics map app so_type so_shape so_position so_orientation c In]. intros [E|[]]. injection E as E _. rewrite sin_0, cos_0 in E. lra.
Qed.

(** A pedestrian that walks makes the import fail. *)
Lemma C68_pedestrian_refuted_pf : forall mz net dynamic static ego am i o, nth_error dynamic i = Some o -> do_type o = PEDESTRIAN -> ~ parked o ->
  forall c, get_scenario_commonroad_replica mz net dynamic static ego am <> Ok c.
Proof.
  intros mz net dynamic static ego am i o N T P c E. apply replica_inv in E as (st & (_ & _ & _ & _ & I5 & _) & _ & _). destruct (I5 i o N P) as (m & agent & _ & _ & V & _).
  - unfold supported. rewrite T. cbn. tauto.
  - unfold vehicle in V. rewrite T in V. cbn in V. decompose [or] V; try discriminate; assumption.
Qed.

Lemma loop_ok mz net ego l : (forall o, In o l -> exists states last, do_states o = Some (states ++ [last])%list /\ (parked o \/ ~ supported o \/ (vehicle o /\ (exists le wi, do_rectangle o = Some (le, wi) /\ le <> 0) /\ exists lane, infer_lane_from_dyn_obs mz net o = Ok lane))) ->
  forall i st, exists st', import_loop mz net ego i l st = Ok st'.
Proof.
  induction l as [|o l IH]; intros H i st; [exists st; reflexivity|]. cbn [import_loop].
  assert (S : exists st1, import_step mz net ego i o st = Ok st1).
  { destruct st as [[players models] statics]. destruct (H o (or_introl eq_refl)) as (states & last & DS & C). unfold import_step. rewrite DS.
    assert (ST : exists b, is_dyn_obstacle_static o (2 / 10) = Ok b) by (unfold is_dyn_obstacle_static, state_list; rewrite DS; cbn [bind]; rewrite item_last_app; eexists; reflexivity). destruct ST as [b ST]. rewrite ST. cbn [bind]. destruct b; [eexists; reflexivity|].
    match goal with |- context [model_agent_from_dynamic_obstacle mz net o ?c] => set (color := c) end.
    destruct (model_agent_from_dynamic_obstacle mz net o color) as [[m agent]| |e] eqn:MA; [eexists; reflexivity|eexists; reflexivity|]. exfalso. destruct C as [C|[C|(V & (le & wi & RE & NZ) & lane & LN)]].
    - apply (static_parked o false ST) in C. discriminate.
    - apply (convert_unsupported mz net o color) in C. congruence.
    - unfold model_agent_from_dynamic_obstacle, infer_model_from_cr_dyn_obstacle in MA. rewrite (proj2 (vehicle_iff o) V), RE in MA. unfold state_list in MA. rewrite DS in MA. cbn [bind] in MA.
      assert (I0 : exists s0, item (states ++ [last]) 0 = Ok s0) by (destruct states; eexists; reflexivity). destruct I0 as [s0 I0]. rewrite I0 in MA. cbn [lift cbind] in MA. destruct (Req_EM_T (le * (7 / 10)) 0) as [Z|Z]; [lra|].
      rewrite LN in MA. destruct (do_type o); cbn [lift cbind make_lf_agent] in MA; discriminate. }
  destruct S as [st1 S]. rewrite S. cbn [bind]. apply IH. intros o' O. apply H. right. exact O.
Qed.

(** The import succeeds if every obstacle has a trajectory with a state, and every one that
    moves has an unsupported type or is a rectangular vehicle for which a lane is found. *)
Lemma C68_succeeds_partial_pf : forall mz net dynamic static ego am,
  (forall o, In o dynamic -> exists states last, do_states o = Some (states ++ [last])%list /\
    (parked o \/ ~ supported o \/ (vehicle o /\ (exists le wi, do_rectangle o = Some (le, wi) /\ le <> 0) /\ exists lane, infer_lane_from_dyn_obs mz net o = Ok lane))) ->
  exists c, get_scenario_commonroad_replica mz net dynamic static ego am = Ok c.
Proof. intros mz net dynamic static ego am H. apply replica_ok. apply loop_ok. exact H. Qed.

(** No missions are assigned, even if they are asked for. *)
Lemma C68_missions_refuted_pf : forall mz net dynamic static ego c, get_scenario_commonroad_replica mz net dynamic static ego true = Ok c -> c_missions c = [].
Proof. intros mz net dynamic static ego c E. apply replica_inv in E as (_ & _ & _ & M). exact M. Qed.

(** The import gives no Ego, and no error, when the named obstacle is parked or not
    supported or there is none. *)
Lemma C68_ego_refuted_pf : forall mz net dynamic static name am c, get_scenario_commonroad_replica mz net dynamic static (Some name) am = Ok c ->
  (forall i o, nth_error dynamic i = Some o -> name = p_i i -> parked o \/ ~ supported o) -> ~ In "Ego" (akeys (c_players c)).
Proof.
  intros mz net dynamic static name am c E H K. destruct (C68_players_pf _ _ _ _ _ _ _ E) as (_ & _ & I3 & I4). destruct (I3 _ K) as (i & o & N & P). pose proof (proj1 (I4 i o _ N P)) as I. apply I in K as [NP SU].
  destruct P as [[P _]|[_ P]]; [|exact (p_i_ego i (eq_sym P))]. injection P as P. destruct (H i o N P); contradiction.
Qed.

(** A vehicle that drives round and comes back is taken for a parked one, wherever it has
    been in between. *)
Lemma C68_loop_refuted_pf : forall mz net ego am o l mid last, vehicle o -> do_states o = Some (l ++ [mid; last])%list -> st_position last = do_position o ->
  exists c, get_scenario_commonroad_replica mz net [o] [] ego am = Ok c /\ c_players c = [] /\ c_statics c = [(do_type o, map (in_world (do_position o) (do_orientation o)) (do_shape o))].
Proof.
  intros mz net ego am o l mid last V DS SP. unfold get_scenario_commonroad_replica. cbn [import_loop]. unfold import_step. rewrite DS. unfold is_dyn_obstacle_static, state_list. rewrite DS. cbn [bind].
  replace (l ++ [mid; last])%list with ((l ++ [mid]) ++ [last])%list by (rewrite <- app_assoc; reflexivity). rewrite item_last_app. cbn [bind]. rewrite SP, (proj2 (vdist_zero _ _) eq_refl). rewrite (proj2 (ltb_iff 0 (2 / 10))) by lra. cbn [bind app akeys map forallb andb]. eexists. split; [reflexivity|]. cbn [c_players c_statics]. split; [reflexivity|]. cbn [map app]. rewrite ?List.app_nil_r, apply_world. reflexivity.
Qed.

Definition ex_net : network := mkNet (fun _ => []) (fun _ => Err PyValueError).

Definition ex_o (t : cr_type) (x : R) : dyn_obs := mkDO t (Some (4, 2)) [(2, 1); (-2, 1); (-2, -1); (2, -1)] (x, 0) 0 5 (Some [mkS (1, 0) 0; mkS (9, 0) 0]).

Lemma ex_moves t x : x <= 0 -> ~ parked (ex_o t x).
Proof.
  intros X (l & s & E & D). cbn in E. injection E as E. assert (S : s = mkS (9, 0) 0) by (assert (Y : last [mkS (1, 0) 0; mkS (9, 0) 0] s = last (l ++ [s]) s) by (rewrite E; reflexivity); rewrite last_last in Y; symmetry; exact Y). subst s. cbn [do_position st_position ex_o] in D.
  pose proof (vdist_x_le (x, 0) (9, 0)) as B. cbn [fst snd] in B. rewrite Rabs_left in B by lra. lra.
Qed.

Lemma ex_parked t : parked (ex_o t 9).
Proof. exists [mkS (1, 0) 0], (mkS (9, 0) 0). split; [reflexivity|]. cbn [do_position st_position ex_o]. rewrite (proj2 (vdist_zero _ _) eq_refl). lra. Qed.

(** The lane is a candidate if there is one, and otherwise the lane along the predicted
    trajectory; among the candidates it is one with the least difference between the
    orientation of the vehicle and the angle of the lane. *)
Lemma C88_lane_pf : forall mz net o states last lane, do_states o = Some (states ++ [last])%list -> infer_lane_from_dyn_obs mz net o = Ok lane ->
  let final := lanelets_at net (st_position last) in
  ((forall c, ~ candidate net (do_position o) final c) -> map (fun c => (t_p (cp_q c), t_theta (cp_q c), 2 * cp_r c)) lane = map (fun s => (st_position s, st_orientation s, 3)) (states ++ [last])) /\
  (forall c, candidate net (do_position o) final c -> candidate net (do_position o) final lane) /\
  forall c a, candidate net (do_position o) final c -> closest_angle mz c (do_position o) = Ok a ->
    exists a', closest_angle mz lane (do_position o) = Ok a' /\ Rabs (do_orientation o - a') <= Rabs (do_orientation o - a).
Proof.
  intros mz net o states last lane DS E final. pose proof (infer_cases mz net o states last lane DS E) as IC. cbv zeta in IC. fold final in IC. destruct IC as [[-> N]|[C M]].
  - split; [intros _; unfold dglane_from_trajectory; rewrite map_map; apply map_ext; intro s; cbn [cp_q cp_r t_p t_theta]; replace (2 * (3 / 2)) with 3 by field; reflexivity|]. split; [intros c C; exfalso; exact (N c C)|intros c a C; exfalso; exact (N c C)].
  - split; [intro N; exfalso; exact (N lane C)|]. split; [intros _ _; exact C|exact M].
Qed.

(** A lane through a lanelet on which the vehicle ends is a candidate, whatever comes after
    it on the way. *)
Lemma C88_complete_pf : forall net p i merged id l r c parts f final lane, In i (lanelets_at net p) -> merged_from net i = Ok merged -> In (id, (l, r, c)) merged ->
  id_of_parts id parts -> In f parts -> In f final -> from_vertices l r c = Ok lane -> candidate net p final lane.
Proof.
  intros net p i merged id l r c parts f final lane I M IM P F FF V. exists i, merged, id, l, r, c, f. do 4 (split; [assumption|]). split; [exact (parts_in id parts f P F)|exact V].
Qed.

(** A lane is inferred for every obstacle with a trajectory if the network gives lanes
    with as many left and right as centre points, and at least one. *)
Lemma C88_defined_pf : forall mz net o states last, do_states o = Some (states ++ [last])%list ->
  (forall i, In i (lanelets_at net (do_position o)) -> exists merged, merged_from net i = Ok merged /\
    forall id l r c, In (id, (l, r, c)) merged -> c <> [] /\ length l = length c /\ length r = length c) ->
  exists lane, infer_lane_from_dyn_obs mz net o = Ok lane.
Proof.
  intros mz net o states last DS H. unfold infer_lane_from_dyn_obs, state_list. rewrite DS. cbn [bind]. rewrite item_last_app. cbn [bind]. generalize (lanelets_at net (st_position last)) as final. intro final.
  destruct (lanelets_at net (do_position o)) as [|i0 il] eqn:EI; [eexists; reflexivity|]. destruct final as [|f0 fl] eqn:EF; [eexists; reflexivity|]. rewrite <- EF, <- EI. rewrite <- EI in H.
  assert (T : exists cs, traverse (candidates_from net final) (lanelets_at net (do_position o)) = Ok cs /\ forall lane, In lane (concat cs) -> lane <> []).
  { assert (D : exists cs, traverse (candidates_from net final) (lanelets_at net (do_position o)) = Ok cs).
    { apply traverse_defined. intros i I. destruct (H i I) as (merged & M & V). unfold candidates_from. rewrite M. cbn [bind]. apply traverse_defined. intros [id [[l r] c]] F. apply filter_In in F as [F _]. destruct (V id l r c F) as (_ & L & R). cbn [snd]. destruct (fv_defined l r c L R) as (lane & E & _). exists lane. exact E. }
    destruct D as [cs D]. exists cs. split; [exact D|]. intros lane L. apply (cand_iff net _ final _ cs eq_refl D) in L as (i & merged & id & l & r & c & f & I & M & IM & _ & _ & V). destruct (H i I) as (merged' & M' & P). rewrite M in M'. injection M' as <-. destruct (P id l r c IM) as (N & LL & LR). destruct (fv_defined l r c LL LR) as (lane' & E & LE). rewrite V in E. injection E as <-. intros ->. destruct c; [contradiction|discriminate]. }
  destruct T as (cs & T & NE). rewrite T. cbn [bind]. destruct (concat cs) as [|c1 [|c2 cl]] eqn:CC; [eexists; reflexivity|eexists; reflexivity|]. rewrite <- CC in *.
  destruct (traverse_defined (fun lane => bind (closest_angle mz lane (do_position o)) (fun s' => Ok (Rabs (do_orientation o - s')))) (concat cs)) as [angles TA]; [intros lane L; destruct (closest_defined mz lane (do_position o) (NE lane L)) as [a ->]; eexists; reflexivity|]. rewrite TA. cbn [bind].
  apply traverse_all in TA. destruct angles as [|a0 al]; [rewrite CC in TA; inversion TA|]. destruct (argmin_spec (a0 :: al) _ eq_refl) as (v & NV & _). cbn [argmin bind]. destruct (forall2_nth_r _ _ _ _ _ TA NV) as (x & NX & _). exists x. apply item_nth. exact NX.
Qed.

(** The lane at a position is the chosen merged lane of the chosen lanelet there; off the
    road there is none, and a choice that does not exist is an error. *)
Lemma C88_position_pf : forall net p i j,
  (lanelets_at net p = [] -> dglane_from_position net p i j = Err PyAssertionError) /\
  (forall lane, dglane_from_position net p i j = Ok lane -> exists id merged mid l r c, nth_error (lanelets_at net p) i = Some id /\ merged_from net id = Ok merged /\ nth_error merged j = Some (mid, (l, r, c)) /\ from_vertices l r c = Ok lane) /\
  (forall id merged, lanelets_at net p <> [] -> nth_error (lanelets_at net p) i = Some id -> merged_from net id = Ok merged -> nth_error merged j = None -> dglane_from_position net p i j = Err PyIndexError) /\
  (lanelets_at net p <> [] -> nth_error (lanelets_at net p) i = None -> dglane_from_position net p i j = Err PyIndexError).
Proof.
  intros net p i j. unfold dglane_from_position. destruct (lanelets_at net p) as [|i0 il] eqn:EI.
  - split; [reflexivity|]. split; [discriminate|]. split; intros; contradiction.
  - split; [discriminate|]. split; [|split].
    + intros lane E. destruct (item (i0 :: il) i) as [id|] eqn:I; [|discriminate]. cbn [bind] in E. destruct (merged_from net id) as [merged|] eqn:M; [|discriminate]. cbn [bind] in E. destruct (item merged j) as [[mid [[l r] c]]|] eqn:J; [|discriminate]. cbn [bind snd] in E. apply item_nth in I, J. exists id, merged, mid, l, r, c. auto.
    + intros id merged _ I M J. apply item_nth in I. rewrite I. cbn [bind]. rewrite M. cbn [bind]. unfold item. rewrite J. reflexivity.
    + intros _ I. unfold item. rewrite I. reflexivity.
Qed.

(** A lane that does not go near the end of the trajectory is a candidate if the digits
    happen to occur: here the lane consists of lanelet 12 and the vehicle ends on lanelet
    2. *)
Lemma C88_wrong_lane_refuted_pf : forall mz v orientation, let net := mkNet (fun p => if Req_EM_T (fst p) 0 then [12%Z] else [2%Z]) (fun i => Ok [(i, ([(0, 2); (1, 2)], [(0, -2); (1, -2)], [(0, 0); (1, 0)]))]) in
  exists lane, infer_lane_from_dyn_obs mz net (mkDO CAR (Some (4, 2)) [] (0, 0) orientation v (Some [mkS (100, 50) 0])) = Ok lane /\ id_of_parts 12 [12%Z] /\ ~ In 2%Z [12%Z] /\
    forall c, In c lane -> fst (t_p (cp_q c)) <= 1.
Proof.
  intros mz v orientation net. set (o := mkDO _ _ _ _ _ _ _). assert (E0 : lanelets_at net (do_position o) = [12%Z]) by (cbn [o net do_position lanelets_at fst]; destruct (Req_EM_T 0 0); [reflexivity|lra]).
  destruct (C88_defined_pf mz net o [] (mkS (100, 50) 0) eq_refl) as [lane E].
  - intros i _. eexists. split; [reflexivity|]. intros id l r c [[= <- <- <- <-]|[]]. split; [discriminate|split; reflexivity].
  - exists lane. split; [exact E|]. split; [reflexivity|]. split; [intros [X|[]]; discriminate|].
    destruct (infer_cases mz net o [] (mkS (100, 50) 0) lane eq_refl E) as [[_ N]|[(i & merged & id & l & r & c & f & I & M & IM & _ & _ & V) _]].
    + exfalso. destruct (fv_defined [(0, 2); (1, 2)] [(0, -2); (1, -2)] [(0, 0); (1, 0)] eq_refl eq_refl) as (la & LA & _). apply (N la). exists 12%Z, [(12%Z, ([(0, 2); (1, 2)], [(0, -2); (1, -2)], [(0, 0); (1, 0)]))], 12%Z, [(0, 2); (1, 2)], [(0, -2); (1, -2)], [(0, 0); (1, 0)], 2%Z. split; [rewrite E0; left; reflexivity|]. split; [reflexivity|]. split; [left; reflexivity|]. split; [cbn [st_position net lanelets_at fst]; destruct (Req_EM_T 100 0); [lra|left; reflexivity]|]. split; [exists "1", ""; reflexivity|exact LA].
    + cbn [net merged_from] in M. injection M as <-. destruct IM as [IM|[]]. injection IM as <- <- <- <-. unfold from_vertices in V. cbn [from_vertices_loop item nth_error bind] in V. injection V as <-. intros x [<-|[<-|[]]]; cbn [cp_q t_p fst]; lra.
Qed.

(** Angles are not compared modulo a full turn: for a vehicle that drives west, a lane that
    leads south is preferred to one that leads west. *)
Lemma C88_angle_refuted_pf : forall mz v, let west := ([(0, -1); (-9, -1)], [(0, 1); (-9, 1)], [(0, 0); (-9, 0)]) in let south := ([(1, 0); (1, -9)], [(-1, 0); (-1, -9)], [(0, 0); (0, -9)]) in
  let net := mkNet (fun _ => [1%Z]) (fun _ => Ok [(1%Z, west); (1%Z, south)]) in
  let o := mkDO CAR (Some (4, 2)) [] (0, 0) (- PI + 1 / 10) v (Some [mkS (-9, 0) PI]) in
  infer_lane_from_dyn_obs mz net o = (let '(l, r, c) := south in from_vertices l r c) /\
  exists w, (let '(l, r, c) := west in from_vertices l r c) = Ok w /\ candidate net (0, 0) [1%Z] w /\ forall c, In c w -> cos (t_theta (cp_q c) - (- PI + 1 / 10)) = cos (1 / 10).
Proof.
  intros mz v west south net o. pose proof PI_RGT_0 as PP. pose proof PI2_1 as P2.
  assert (AW : atan2 0 (-2) = PI) by (pose proof (atan2_spec 0 (-2)) as [A B]; assert (N : vnorm (-2, 0) = 2) by (unfold vnorm, vdot; cbn [fst snd]; replace (-2 * -2 + 0 * 0) with (2 * 2) by ring; apply sqrt_square; lra); rewrite N in A, B; apply angle_unique; [apply atan2_range|lra|rewrite cos_PI; lra|rewrite sin_PI; lra]).
  assert (AS : atan2 (-2) 0 = - (PI / 2)) by (pose proof (atan2_spec (-2) 0) as [A B]; assert (N : vnorm (0, -2) = 2) by (unfold vnorm, vdot; cbn [fst snd]; replace (0 * 0 + -2 * -2) with (2 * 2) by ring; apply sqrt_square; lra); rewrite N in A, B; apply angle_unique; [apply atan2_range|lra|rewrite cos_neg, cos_PI2; lra|rewrite sin_neg, sin_PI2; lra]).
  assert (W : exists w, from_vertices [(0, -1); (-9, -1)] [(0, 1); (-9, 1)] [(0, 0); (-9, 0)] = Ok w /\ w <> [] /\ forall c, In c w -> t_theta (cp_q c) = PI).
  { eexists. split; [reflexivity|]. split; [discriminate|]. intros c [<-|[<-|[]]]; cbn [cp_q t_theta]; unfold rot90, vsub; cbn [fst snd]; etransitivity; [|exact AW|..]; try exact AW; f_equal; lra. }
  assert (S : exists s, from_vertices [(1, 0); (1, -9)] [(-1, 0); (-1, -9)] [(0, 0); (0, -9)] = Ok s /\ s <> [] /\ forall c, In c s -> t_theta (cp_q c) = - (PI / 2)).
  { eexists. split; [reflexivity|]. split; [discriminate|]. intros c [<-|[<-|[]]]; cbn [cp_q t_theta]; unfold rot90, vsub; cbn [fst snd]; etransitivity; [|exact AS|..]; try exact AS; f_equal; lra. }
  assert (BW : - PI < PI <= PI) by lra. assert (BS : - PI < - (PI / 2) <= PI) by lra. destruct W as (w & EW & NW & HW). destruct S as (s & ES & NS & HS). cbn [south west]. split.
  - rewrite ES. unfold infer_lane_from_dyn_obs. cbn [state_list do_states o bind item_last rev app lanelets_at net traverse candidates_from merged_from filter fst snd]. replace (existsb _ [1%Z]) with true by reflexivity. cbn [traverse snd west south]. rewrite EW, ES. cbn [bind concat app traverse do_position o do_orientation].
    rewrite (heading_lane mz w _ PI NW BW HW). cbn [bind]. rewrite (heading_lane mz s _ (- (PI / 2)) NS BS HS). cbn [bind argmin argmin_loop].
    rewrite (Rabs_left (- PI + 1 / 10 - PI)) by lra. rewrite (Rabs_left (- PI + 1 / 10 - - (PI / 2))) by lra. rewrite (proj2 (ltb_iff (- (- PI + 1 / 10 - - (PI / 2))) (- (- PI + 1 / 10 - PI)))) by lra. reflexivity.
  - exists w. split; [exact EW|]. split; [exists 1%Z, [(1%Z, west); (1%Z, south)], 1%Z, [(0, -1); (-9, -1)], [(0, 1); (-9, 1)], [(0, 0); (-9, 0)], 1%Z; split; [left; reflexivity|]; split; [reflexivity|]; split; [left; reflexivity|]; split; [left; reflexivity|]; split; [exists "", ""; reflexivity|exact EW]|].
    intros c C. rewrite (HW c C). replace (PI - (- PI + 1 / 10)) with (- (1 / 10) + 2 * PI) by ring. rewrite cos_2PI_shift, cos_neg. reflexivity.
Qed.

(** The model has the initial position, orientation and speed of the obstacle. *)
Lemma C89_state_pf : forall o color m, infer_model_from_cr_dyn_obstacle o color = Done m -> starts_as o m.
Proof.
  intros o color m E. unfold infer_model_from_cr_dyn_obstacle in E. destruct (is_vehicle (do_type o)) eqn:V.
  - apply vehicle_iff in V. destruct (do_rectangle o) as [[le wi]|]; [|discriminate]. destruct (bind (state_list o) (fun s => item s 0)) as [s0|]; [|discriminate]. cbn [lift cbind] in E. destruct (Req_EM_T (le * (7 / 10)) 0); [discriminate|].
    destruct (do_type o); injection E as <-; cbn [starts_as]; auto.
  - destruct (do_type o) eqn:T; try discriminate. injection E as <-. cbn [starts_as]. rewrite T. auto.
Qed.

(** The axles are 0.35 of the length from the centre, in front of it and behind it; the
    mass and the inertia of cars, trucks and buses are positive, and grow with the area. *)
Lemma C89_body_pf : forall o color p psi vx de g mi col le wi, infer_model_from_cr_dyn_obstacle o color = Done (Vehicle p psi vx de g mi col) -> do_rectangle o = Some (le, wi) -> 0 < le -> 0 < wi ->
  col = color /\ g_lf g = 35 / 100 * le /\ g_lr g = g_lf g /\ g_w_half g = 475 / 1000 * wi /\ (g_type g = if match do_type o with BICYCLE => true | _ => false end then "bicycle" else "car") /\
  (do_type o <> BICYCLE -> exists m i, mi = Some (m, i) /\ 0 < m /\ 0 < i /\ forall o' color' p' psi' vx' de' g' m' i' col' le' wi', infer_model_from_cr_dyn_obstacle o' color' = Done (Vehicle p' psi' vx' de' g' (Some (m', i')) col') -> do_rectangle o' = Some (le', wi') -> le * wi < le' * wi' -> m < m').
Proof.
  intros o color p psi vx de g mi col le wi E RE L W. unfold infer_model_from_cr_dyn_obstacle in E. destruct (is_vehicle (do_type o)) eqn:V; [|destruct (do_type o); discriminate]. rewrite RE in E. destruct (bind (state_list o) (fun s => item s 0)) as [s0|]; [|discriminate]. cbn [lift cbind] in E. destruct (Req_EM_T (le * (7 / 10)) 0); [discriminate|].
  assert (MM : 0 < fst (estimate_car_mass_inertia le wi) /\ 0 < snd (estimate_car_mass_inertia le wi)). { unfold estimate_car_mass_inertia. cbn [fst snd]. assert (P : 0 < Rpower (le * wi) (16 / 10)) by apply exp_pos. split; [lra|]. apply Rdiv_lt_0_compat; [|lra]. apply Rmult_lt_0_compat; lra. }
  assert (GR : forall o' color' p' psi' vx' de' g' m' i' col' le' wi', infer_model_from_cr_dyn_obstacle o' color' = Done (Vehicle p' psi' vx' de' g' (Some (m', i')) col') -> do_rectangle o' = Some (le', wi') -> le * wi < le' * wi' -> fst (estimate_car_mass_inertia le wi) < m').
  { intros o' color' p' psi' vx' de' g' m' i' col' le' wi' E' RE' LT. unfold infer_model_from_cr_dyn_obstacle in E'. destruct (is_vehicle (do_type o')); [|destruct (do_type o'); discriminate]. rewrite RE' in E'. destruct (bind (state_list o') (fun s => item s 0)) as [s1|]; [|discriminate]. cbn [lift cbind] in E'. destruct (Req_EM_T (le' * (7 / 10)) 0); [discriminate|].
    assert (Q : m' = fst (estimate_car_mass_inertia le' wi')) by (destruct (do_type o'); try discriminate; injection E'; intros; subst; reflexivity). rewrite Q. unfold estimate_car_mass_inertia. cbn [fst]. assert (0 < le * wi) by (apply Rmult_lt_0_compat; assumption). apply Rmult_lt_compat_l; [lra|]. apply Rlt_Rpower_l; lra. }
  destruct (do_type o); try discriminate V; injection E as <- <- <- <- <- <- <-; cbn [g_lf g_lr g_w_half g_type]; (split; [reflexivity|]); (split; [field|]); (split; [reflexivity|]); (split; [field|]); (split; [reflexivity|]); intro NB; try contradiction; eexists; eexists; (split; [reflexivity|]); (split; [apply MM|]); (split; [apply MM|exact GR]).
Qed.

(** The body of the model has another size than the obstacle, unless it happens to be 4.8 m
    long and 4 m wide (a bicycle: 3 m by 2 m). *)
Lemma C89_size_refuted_pf : forall o color p psi vx de g mi col le wi, infer_model_from_cr_dyn_obstacle o color = Done (Vehicle p psi vx de g mi col) -> do_rectangle o = Some (le, wi) ->
  exists x0 x1 y, outline g = Ok (box_ring x0 x1 y) /\
    (do_type o <> BICYCLE -> x1 - x0 = 875 / 1000 * le + 6 / 10 /\ y - (- y) = 95 / 100 * wi + 2 / 10 /\ (x1 - x0 = le <-> le = 48 / 10) /\ (y - (- y) = wi <-> wi = 4)) /\
    (do_type o = BICYCLE -> x1 - x0 = 7 / 10 * le + 9 / 10 /\ y - (- y) = 95 / 100 * wi + 1 / 10 /\ (x1 - x0 = le <-> le = 3) /\ (y - (- y) = wi <-> wi = 2)).
Proof.
  intros o color p psi vx de g mi col le wi E RE. unfold infer_model_from_cr_dyn_obstacle in E. destruct (is_vehicle (do_type o)) eqn:V; [|destruct (do_type o); discriminate]. rewrite RE in E. destruct (bind (state_list o) (fun s => item s 0)) as [s0|]; [|discriminate]. cbn [lift cbind] in E. destruct (Req_EM_T (le * (7 / 10)) 0); [discriminate|].
  assert (G : (do_type o <> BICYCLE /\ g = mkVG "car" (wi / 2 * (95 / 100)) (le * (7 / 10) / 2) (le * (7 / 10) / 2)) \/ (do_type o = BICYCLE /\ g = mkVG "bicycle" (wi / 2 * (95 / 100)) (le * (7 / 10) / 2) (le * (7 / 10) / 2))) by (destruct (do_type o); try discriminate V; injection E as <- <- <- <- <- <- <-; [left|right|left|left]; split; (discriminate || reflexivity)).
  destruct G as [[T ->]|[T ->]]; unfold outline, bumpers_length, wheel_shape; cbn [g_type g_lf g_lr g_w_half String.eqb Ascii.eqb Bool.eqb four FourWheelsTypes existsb orb bind fst snd].
  - exists (- (le * (7 / 10) / 2) - 3 / 10 * 2), (le * (7 / 10) / 2 + le * (7 / 10) / 2 / 2), (wi / 2 * (95 / 100) + 1 / 10). split; [unfold box_ring; replace (- (wi / 2 * (95 / 100)) - 1 / 10) with (- (wi / 2 * (95 / 100) + 1 / 10)) by ring; reflexivity|]. split; [intros _|intro; contradiction]. split; [lra|]. split; [lra|]. split; split; intro; lra.
  - exists (- (le * (7 / 10) / 2) - 3 / 10 * 2), (le * (7 / 10) / 2 + 3 / 10), (wi / 2 * (95 / 100) + 5 / 100). split; [unfold box_ring; replace (- (wi / 2 * (95 / 100)) - 5 / 100) with (- (wi / 2 * (95 / 100) + 5 / 100)) by ring; reflexivity|]. split; [intro; contradiction|intros _]. split; [lra|]. split; [lra|]. split; split; intro; lra.
Qed.

(** The initial steering angle is the change of the orientation over the first step, not
    modulo a full turn, over the wheelbase: for a car of 4 m it can be more than 2 rad,
    above any limit for the steering. *)
Lemma C89_steering_refuted_pf : forall color p vx, let o := mkDO CAR (Some (4, 2)) [] p PI vx (Some [mkS p (- PI + 1 / 10)]) in
  exists g mi de, infer_model_from_cr_dyn_obstacle o color = Done (Vehicle p PI vx de g mi color) /\ de < - 2.
Proof.
  intros color p vx o. unfold infer_model_from_cr_dyn_obstacle. cbn [o do_type is_vehicle do_rectangle state_list do_states bind item nth_error lift cbind st_orientation do_orientation do_position do_velocity]. destruct (Req_EM_T (4 * (7 / 10)) 0); [lra|]. do 3 eexists. split; [reflexivity|]. pose proof PI2_3_2 as P. apply Rmult_lt_reg_r with (4 * (7 / 10)); [lra|]. unfold Rdiv at 1. rewrite Rmult_assoc, Rinv_l by lra. lra.
Qed.

Lemma ends_app a b : ends_with (a ++ b) b = true.
Proof.
  unfold ends_with. assert (L : String.length (a ++ b) = (String.length a + String.length b)%nat) by (induction a as [|c a IH]; [reflexivity|cbn [append String.length]; rewrite IH; reflexivity]). rewrite L. rewrite (proj2 (Nat.leb_le _ _)) by lia. replace (String.length a + String.length b - String.length b)%nat with (String.length a) by lia. rewrite <- (append_nil (a ++ b)), append_assoc. rewrite substring_app. apply String.eqb_refl.
Qed.

Lemma find_app name w1 w2 acc : find_file name (w1 ++ w2) acc = find_file name w2 (find_file name w1 acc).
Proof. revert acc. induction w1 as [|[r f] w1 IH]; intro acc; [reflexivity|]. cbn [app find_file]. apply IH. Qed.

Lemma find_none name w acc : (forall root files, In (root, files) w -> ~ In name files) -> find_file name w acc = acc.
Proof.
  revert acc. induction w as [|[r f] w IH]; intros acc H; [reflexivity|]. cbn [find_file]. replace (existsb (String.eqb name) f) with false; [apply IH; intros root files I; apply (H root files); right; exact I|]. symmetry. apply not_true_is_false. intro X. apply existsb_exists in X as (y & Y & E). apply String.eqb_eq in E. subst y. exact (H r f (or_introl eq_refl) Y).
Qed.

(** The file is looked for in the whole tree, with the ending .xml if the name has none;
    it is found if and only if it is there. *)
Lemma C90_found_pf : forall name walk path, scenario_file name walk = Ok path ->
  exists file root files, (file = name \/ file = (name ++ ".xml")%string) /\ ends_with file ".xml" = true /\ In (root, files) walk /\ In file files /\ path = (root ++ "/" ++ file)%string.
Proof.
  intros name walk path E. unfold scenario_file in E. set (file := if ends_with name ".xml" then name else name ++ ".xml") in E. assert (F : (file = name \/ file = name ++ ".xml") /\ ends_with file ".xml" = true) by (unfold file; destruct (ends_with name ".xml") eqn:EW; [auto|split; [auto|apply ends_app]]).
  assert (G : forall acc p, find_file file walk acc = Some p -> acc = Some p \/ exists root files, In (root, files) walk /\ In file files /\ p = root ++ "/" ++ file).
  { clear E. induction walk as [|[r f] w IH]; intros acc p H; [left; exact H|]. cbn [find_file] in H. apply IH in H as [H|(root & files & I & J & K)]; [|right; exists root, files; split; [right; exact I|auto]]. destruct (existsb (String.eqb file) f) eqn:X; [|left; exact H]. apply existsb_exists in X as (y & Y & Q). apply String.eqb_eq in Q. subst y. injection H as <-. right. exists r, f. split; [left; reflexivity|auto]. }
  destruct (find_file file walk None) as [p|] eqn:FF; [|discriminate]. injection E as <-. destruct (G _ _ FF) as [X|(root & files & I & J & K)]; [discriminate|]. exists file, root, files. destruct F as [F1 F2]. auto.
Qed.

Lemma C90_complete_pf : forall name walk root files, ends_with name ".xml" = true -> In (root, files) walk -> In name files -> exists path, scenario_file name walk = Ok path.
Proof.
  intros name walk root files EW I J. unfold scenario_file. rewrite EW. apply in_split in I as (w1 & w2 & ->). rewrite find_app. cbn [find_file]. replace (existsb (String.eqb name) files) with true by (symmetry; apply existsb_exists; exists name; split; [exact J|apply String.eqb_refl]).
  assert (G : forall w acc, acc <> None -> find_file name w acc <> None) by (induction w as [|[r f] w IH]; intros acc A; [exact A|cbn [find_file]; apply IH; destruct (existsb _ f); [discriminate|exact A]]).
  match goal with |- context [find_file name w2 ?a] => specialize (G w2 a) end. destruct (find_file name w2 _); [eexists; reflexivity|exfalso; apply G; [discriminate|reflexivity]].
Qed.

(** Of several files with the name, the one in the last directory of the walk is taken. *)
Lemma C90_last_pf : forall name w1 root files w2, ends_with name ".xml" = true -> In name files -> (forall r f, In (r, f) w2 -> ~ In name f) -> scenario_file name (w1 ++ (root, files) :: w2) = Ok (root ++ "/" ++ name)%string.
Proof.
  intros name w1 root files w2 EW J N. unfold scenario_file. rewrite EW, find_app. cbn [find_file]. replace (existsb (String.eqb name) files) with true by (symmetry; apply existsb_exists; exists name; split; [exact J|apply String.eqb_refl]). rewrite find_none by exact N. reflexivity.
Qed.

(** The name without the ending means the same file. *)
Lemma C90_ending_pf : forall name walk, ends_with name ".xml" = false -> scenario_file name walk = scenario_file (name ++ ".xml") walk.
Proof. intros name walk EW. unfold scenario_file. rewrite EW, ends_app. reflexivity. Qed.

(** Directories do not disambiguate: a name with a directory is not found. *)
Lemma C90_path_refuted_pf : scenario_file "USA/a.xml" [("scenarios", []); ("scenarios/USA", ["a.xml"])] = Err PyOther.
Proof. reflexivity. Qed.

(** The obstacles are the given ones and then the boundaries of the road, which are added
    if they are asked for and there is a scenario; the tree has the shapes of all, in the
    same order. *)
Lemma C91_obstacles_pf : forall (Scen Obs Shape : Type) (shape_of : Obs -> Shape) of_bound bounds (scenario : option Scen) given use buffer obs tree,
  dg_scenario shape_of of_bound bounds scenario given use buffer = Ok (obs, tree) ->
  (length tree = length obs /\ forall k o, nth_error obs k = Some o -> nth_error tree k = Some (shape_of o)) /\
  exists extra, obs = (match given with Some l => l | None => [] end ++ extra)%list /\
    (use = false \/ scenario = None -> extra = []) /\
    (forall s, use = true -> scenario = Some s -> 0 <= buffer /\ exists bs, bounds s buffer = Ok bs /\ extra = map of_bound bs).
Proof.
  intros Scen Obs Shape shape_of of_bound bounds scenario given use buffer obs tree E. unfold dg_scenario in E. set (l := match given with Some l => l | None => [] end) in *.
  assert (T : tree = map shape_of obs /\ exists extra, obs = (l ++ extra)%list /\ (use = false \/ scenario = None -> extra = []) /\ (forall s, use = true -> scenario = Some s -> 0 <= buffer /\ exists bs, bounds s buffer = Ok bs /\ extra = map of_bound bs)).
  { destruct use; [destruct scenario as [s|]|].
    - destruct (leb 0 buffer) eqn:B; [|discriminate]. apply leb_iff in B. destruct (bounds s buffer) as [bs|] eqn:BS; [|discriminate]. cbn [bind] in E. injection E as <- <-. split; [reflexivity|]. exists (map of_bound bs). split; [reflexivity|]. split; [intros [X|X]; discriminate|]. intros s' _ [= <-]. split; [exact B|]. exists bs. auto.
    - cbn [bind] in E. injection E as <- <-. split; [reflexivity|]. exists []. rewrite List.app_nil_r. split; [reflexivity|]. split; [reflexivity|discriminate].
    - cbn [bind] in E. injection E as <- <-. split; [reflexivity|]. exists []. rewrite List.app_nil_r. split; [reflexivity|]. split; [reflexivity|discriminate]. }
  destruct T as [-> T]. split; [|exact T]. split; [apply map_length|]. intros k o N. exact (map_nth_error shape_of k obs N).
Qed.

(** A negative width of the boundaries is an error, but only if they are used. *)
Lemma C91_negative_pf : forall (Scen Obs Shape : Type) (shape_of : Obs -> Shape) of_bound bounds (s : Scen) given buffer, buffer < 0 ->
  dg_scenario shape_of of_bound bounds (Some s) given true buffer = Err PyAssertionError /\ exists r, dg_scenario shape_of of_bound bounds (Some s) given false buffer = Ok r.
Proof. intros Scen Obs Shape shape_of of_bound bounds s given buffer B. unfold dg_scenario. rewrite (proj2 (leb_false 0 buffer)) by exact B. split; [reflexivity|eexists; reflexivity]. Qed.
