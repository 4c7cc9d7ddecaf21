(* Generated from tools/Raise.src by tools/gen_props.py. *)
(** Which exception is raised when: properties of the failures of the interface. *)
From Coq Require Import Reals Lra String List Bool ZArith QArith Qcanon Lia.
From Verif Require Import Base Num R2 VehState.
From Verif Require SeqModel TrajModel CollModel GeoModel DataModel EvalModel DrawModel BodyModel SimulatorModel AgentModel FollowModel AnimModel LaneModel PursuitModel ScenarioModel CtrlModel SimulatorWorld.
From Verif Require Import DictLemmas.
Import ListNotations.
Open Scope string_scope.

(** Sequences: a timestamp that is no number is refused with the library's ZValueError;
    accumulating needs the subscripted class, and what integration and accumulation give
    can be accumulated again. *)
Lemma C129_sequences_pf :
  (forall X ts (vs : list X), length ts = length vs -> In SeqModel.SOther ts -> SeqModel.ctor true ts vs = Err ZValueError) /\
  (forall s, SeqModel.typed s = false -> SeqModel.seq_accumulate s = Err PyAttributeError) /\
  (forall s s', SeqModel.seq_accumulate s = Ok s' -> SeqModel.typed s' = true) /\
  (forall s s', SeqModel.seq_integrate s = Ok s' -> length (SeqModel.vals s) <> 1%nat -> SeqModel.typed s' = true).
Proof.
  split; [|split; [|split]].
  - intros X ts vs L I. unfold SeqModel.ctor. rewrite L, Nat.eqb_refl. cbn [negb].
    assert (F : forallb SeqModel.is_timestamp ts = false).
    { clear L. induction ts as [|a r IH]; [contradiction|]. destruct I as [->|I]; [reflexivity|]. cbn. rewrite (IH I). apply andb_false_r. }
    rewrite F. reflexivity.
  - intros s H. unfold SeqModel.seq_accumulate. rewrite H. reflexivity.
  - intros s s' H. unfold SeqModel.seq_accumulate in H. destruct (SeqModel.typed s); [|discriminate]. unfold SeqModel.new_seq in H.
    repeat match type of H with context [if ?c then _ else _] => destruct c end; try discriminate; injection H as <-; reflexivity.
  - intros s s' H N. unfold SeqModel.seq_integrate in H. destruct (_ =? 0)%nat; [discriminate|]. destruct (Nat.eqb_spec (length (SeqModel.vals s)) 1); [contradiction|].
    destruct (SeqModel.iterate_with_dt s); [|discriminate]. unfold SeqModel.new_seq in H.
    repeat match type of H with context [if ?c then _ else _] => destruct c end; try discriminate; injection H as <-; reflexivity.
Qed.

Lemma all_type_errors {A} (f : TrajModel.node -> result A) l : (forall n, (exists a, f n = Ok a) \/ f n = Err PyTypeError) -> (exists n, In n l /\ f n = Err PyTypeError) -> rmapM f l = Err PyTypeError.
Proof.
  intros F. induction l as [|a r IH]; intros (n & I & E); [contradiction|]. cbn. destruct (F a) as [[x X]| ->]; [|reflexivity]. rewrite X.
  destruct I as [<-|I]; [congruence|]. rewrite IH by (exists n; auto). reflexivity.
Qed.

(** Graphs of trajectories: a path over a state without time is a TypeError, graphs with
    cycles and graphs without exactly one root an AssertionError, extending a node that
    was added without generation a KeyError; adding a node again without generation
    keeps the one it has. *)
Lemma C129_graphs_pf :
  (forall N g s t nodes x, TrajModel.path_of N g s t = Ok nodes -> In (TrajModel.Bare x) nodes -> TrajModel.get_trajectory N g s t = Err PyTypeError) /\
  (forall N g, TrajModel.nx_is_dag N g = false \/ length (TrajModel.roots g) <> 1%nat -> TrajModel.get_all_trajectories N g = Err PyAssertionError /\ TrajModel.get_all_transitions N g = Err PyAssertionError) /\
  (forall g states tr cmds t0 t1 x0 x1, SeqModel.get_start states = Ok t0 -> SeqModel.get_end states = Ok t1 -> SeqModel.at_ states t0 = Ok x0 -> SeqModel.at_ states t1 = Ok x1 ->
    aget TrajModel.node_eqb (TrajModel.g_nodes g) (TrajModel.Timed t0 x0) = Some None -> TrajModel.has_node g (TrajModel.Bare x1) = false -> TrajModel.add_edge g states tr cmds = Err PyKeyError) /\
  (forall g n, TrajModel.has_node g n = true -> TrajModel.add_node g n None = g).
Proof.
  split; [|split; [|split]].
  - intros N g s t nodes x P I. unfold TrajModel.get_trajectory. rewrite P. rewrite (all_type_errors TrajModel.node_time nodes); [destruct (rmapM TrajModel.node_state nodes); reflexivity| |].
    + intros [q y|y]; cbn; [left; exists q; reflexivity| right; reflexivity].
    + exists (TrajModel.Bare x). split; [exact I| reflexivity].
  - intros N g H. unfold TrajModel.get_all_trajectories, TrajModel.get_all_transitions, TrajModel.all_from_root. destruct (TrajModel.nx_is_dag N g); [|split; reflexivity].
    destruct H as [H|H]; [discriminate|]. destruct (TrajModel.roots g) as [|a [|b r]]; [split; reflexivity| cbn in H; contradiction| split; reflexivity].
  - intros g states tr cmds t0 t1 x0 x1 A B C D E F. unfold TrajModel.add_edge. rewrite A, B, C, D.
    assert (K : TrajModel.check_node g (TrajModel.Timed t0 x0) = Ok tt).
    { unfold TrajModel.check_node. replace (TrajModel.has_node g (TrajModel.Timed t0 x0)) with true; [reflexivity|]. symmetry. unfold TrajModel.has_node. clear - E. induction (TrajModel.g_nodes g) as [|[n o] r IH]; [discriminate|].
      cbn [aget existsb fst] in E |- *. unfold aget in E. fold (aget TrajModel.node_eqb r (TrajModel.Timed t0 x0)) in E. destruct (TrajModel.node_eqb n (TrajModel.Timed t0 x0)); [reflexivity| exact (IH E)]. }
    rewrite K, F, E. reflexivity.
  - intros g n H. unfold TrajModel.add_node. rewrite H. reflexivity.
Qed.

(** The geometry of impacts, for shapes that neither only touch nor contain each other: an
    intersection in several pieces whose enclosing rectangle has no exterior is an
    AttributeError; an intersection that is neither polygon, line nor collection is a
    CollisionException; nothing else is ever raised. *)
Lemma C129_impacts_pf : forall Sh (sh : CollModel.shapely Sh) a b, CollModel.touches sh a b = false -> CollModel.contains sh a b = false ->
  (CollModel.intersection sh a b = CollModel.IMulti None -> CollModel.compute_impact_geometry sh a b = Err PyAttributeError) /\
  (CollModel.intersection sh a b = CollModel.IOther -> CollModel.compute_impact_geometry sh a b = Err CollisionException) /\
  (forall e, CollModel.compute_impact_geometry sh a b = Err e -> e = CollisionException \/ e = PyAttributeError).
Proof.
  intros Sh sh a b T C. unfold CollModel.compute_impact_geometry. rewrite T, C. unfold CollModel.find_intersection_points. split; [|split].
  - intros ->. reflexivity.
  - intros ->. reflexivity.
  - intros e. destruct (CollModel.intersection sh a b) as [ext|c|[ext|]|];
      try (destruct (length (filter _ _) =? 2)%nat eqn:L; [apply Nat.eqb_eq in L; destruct (filter _ _) as [|p [|q [|r z]]]; cbn in L; discriminate|]); intros [= <-]; auto.
Qed.

(** Lanes: a lane that is not in the network any more, or whose successor is not, is an
    AttributeError; a lane without successor has none; every question to a lane without
    control points beyond its end is an IndexError. *)
Lemma C129_lanes_pf :
  (forall n d c r i j, d = c :: r -> (exists c1 r', r = c1 :: r' /\ EvalModel.n_at n (GeoModel.t_p (LaneModel.cp_q c1)) = i :: j) -> (forall l, In l (EvalModel.n_lanes n) -> EvalModel.cr_id l <> i) ->
    EvalModel.get_lanelet_from_dglanelet n d = Err PyAttributeError) /\
  (forall next n d l, EvalModel.get_lanelet_from_dglanelet n d = Ok l ->
    (next l = [] -> EvalModel.get_next_dglane next n d = Ok None) /\
    (forall i r, next l = i :: r -> (forall l', In l' (EvalModel.n_lanes n) -> EvalModel.cr_id l' <> i) -> EvalModel.get_next_dglane next n d = Err PyAttributeError)) /\
  (forall beta, LaneModel.radius [] beta = Err PyIndexError /\ LaneModel.center_point [] beta = Err PyIndexError /\ LaneModel.center_point_fast [] beta = Err PyIndexError).
Proof.
  assert (FN : forall n i, (forall l, In l (EvalModel.n_lanes n) -> EvalModel.cr_id l <> i) -> EvalModel.find_by_id n i = None).
  { intros n i H. unfold EvalModel.find_by_id. destruct (find _ _) as [l|] eqn:E; [|reflexivity]. apply find_some in E. destruct E as [E1 E2]. apply Nat.eqb_eq in E2. exfalso. exact (H l E1 E2). }
  split; [|split].
  - intros n d c r i j -> (c1 & r' & -> & A) H. unfold EvalModel.get_lanelet_from_dglanelet. cbn. rewrite A. cbn. rewrite (FN n i H). reflexivity.
  - intros next n d l E. unfold EvalModel.get_next_dglane. rewrite E. cbn. split; [intros ->; reflexivity|]. intros i r -> H. rewrite (FN n i H). reflexivity.
  - intros beta. unfold LaneModel.radius, LaneModel.center_point, LaneModel.center_point_fast. cbn [length]. destruct (LaneModel.ifloor beta <? 0)%Z eqn:L; [repeat split|].
    apply Z.ltb_ge in L. destruct (Z.geb_spec (LaneModel.ifloor beta) (Z.of_nat 0 - 1)); [repeat split| cbn in *; lia].
Qed.

(** Imported obstacles: without a predicted trajectory the lane cannot be inferred
    (AttributeError), with an empty one it is an IndexError. *)
Lemma C129_obstacles_pf : forall minimize net o tol,
  (ScenarioModel.do_states o = None -> ScenarioModel.infer_lane_from_dyn_obs minimize net o = Err PyAttributeError /\ ScenarioModel.is_dyn_obstacle_static o tol = Err PyAttributeError) /\
  (ScenarioModel.do_states o = Some [] -> ScenarioModel.infer_lane_from_dyn_obs minimize net o = Err PyIndexError /\ ScenarioModel.is_dyn_obstacle_static o tol = Err PyIndexError).
Proof.
  intros minimize net o tol. unfold ScenarioModel.infer_lane_from_dyn_obs, ScenarioModel.is_dyn_obstacle_static, ScenarioModel.state_list. split; intros ->; split; reflexivity.
Qed.

(** Shapes and states: the conversion of a polygon without vertices is an IndexError; the
    speed of a state that has no longitudinal speed is the library's ZValueError, and a
    TypeError if that field holds no number. *)
Lemma C129_states_pf :
  (forall V (veqb : V -> V -> bool), GeoModel.sPolygon2crPolygon veqb [] = Err PyIndexError) /\
  (forall st, aget String.eqb (DataModel.o_dict st) "vx" = None -> DataModel.extract_vel_from_state st = Err ZValueError) /\
  (forall st v, aget String.eqb (DataModel.o_dict st) "vx" = Some v -> (forall x, v <> DataModel.Num x) -> DataModel.extract_vel_from_state st = Err PyTypeError).
Proof.
  split; [reflexivity|]. split.
  - intros st H. unfold DataModel.extract_vel_from_state, DataModel.getnum, DataModel.getattr. rewrite H. reflexivity.
  - intros st v H N. unfold DataModel.extract_vel_from_state, DataModel.getnum, DataModel.getattr. rewrite H. cbn. destruct v; try reflexivity. exfalso. exact (N _ eq_refl).
Qed.

(** The context of a simulation is refused exactly if some model has no player, some
    player no model, or some goal no model. *)
Lemma C129_contexts_pf : forall W (c : SimulatorModel.ctx W),
  (SimulatorModel.ctx_post_init c = Ok tt \/ SimulatorModel.ctx_post_init c = Err PyAssertionError) /\
  (SimulatorModel.ctx_post_init c = Ok tt <->
    (forall p, In p (akeys (SimulatorModel.c_models c)) <-> In p (akeys (SimulatorModel.c_players c))) /\
    (forall p, In p (akeys (SimulatorModel.g_missions (SimulatorModel.c_cfg c))) -> In p (akeys (SimulatorModel.c_models c)))) /\
  (forall p, aget Nat.eqb (SimulatorModel.c_sensors c) p = None -> SimulatorModel.g_sensors_default (SimulatorModel.c_cfg c) = false -> SimulatorModel.get_sensor c p = Err PyKeyError).
Proof.
  intros W c. assert (M : forall V (d : list (nat * V)) p, SimulatorModel.dmem d p = true <-> In p (akeys d)).
  { intros V d p. unfold SimulatorModel.dmem. destruct (aget Nat.eqb d p) eqn:E; split; intros H; try reflexivity; try discriminate; [eapply dget_Some_In; exact E|]. apply dget_None in E. contradiction. }
  unfold SimulatorModel.ctx_post_init, SimulatorModel.same_keys. split; [|split].
  - destruct (negb (_ && _)); [right; reflexivity|]. destruct (negb _); [right| left]; reflexivity.
  - set (A := forallb (fun k => SimulatorModel.dmem (SimulatorModel.c_players c) k) _). set (B := forallb _ (akeys (SimulatorModel.c_players c))). set (D := forallb _ _).
    assert (EA : A = true <-> forall p, In p (akeys (SimulatorModel.c_models c)) -> In p (akeys (SimulatorModel.c_players c))). { unfold A. rewrite forallb_forall. split; intros H p I; apply M, (H p I). }
    assert (EB : B = true <-> forall p, In p (akeys (SimulatorModel.c_players c)) -> In p (akeys (SimulatorModel.c_models c))). { unfold B. rewrite forallb_forall. split; intros H p I; apply M, (H p I). }
    assert (ED : D = true <-> forall p, In p (akeys (SimulatorModel.g_missions (SimulatorModel.c_cfg c))) -> In p (akeys (SimulatorModel.c_models c))). { unfold D. rewrite forallb_forall. split; intros H p I; apply M, (H p I). }
    clearbody A B D. split.
    + intros H. destruct A, B, D; try discriminate. split; [|apply ED; reflexivity]. intros p. split; [apply EA| apply EB]; reflexivity.
    + intros [H1 H2]. rewrite (proj2 EA), (proj2 EB), (proj2 ED); [reflexivity| exact H2| intros p; apply H1| intros p; apply H1].
  - intros p A B. unfold SimulatorModel.get_sensor. rewrite A, B. reflexivity.
Qed.

(** The end of a log without players is a ValueError. *)
Lemma C129_empty_log_pf : forall W, SimulatorModel.simlog_init_time (W := W) [] = Err PyValueError /\ SimulatorModel.simlog_last_time (W := W) [] = Err PyValueError.
Proof. split; reflexivity. Qed.

(** Agents that are asked before their episode began: KeyError; a lane follower whose
    state has no speed or steering angle: AttributeError. *)
Lemma C129_agents_pf :
  (forall X F PP G Lane (env : AgentModel.lf_env X PP G Lane) a (o : SimulatorModel.simobs X F), AgentModel.a_name a = None -> AgentModel.lf_get_commands env a o = Err PyKeyError) /\
  (forall X F PP G Lane (env : AgentModel.lf_env X PP G Lane) a (o : SimulatorModel.simobs X F) n x f, AgentModel.a_name a = Some n -> aget Nat.eqb (SimulatorModel.o_players o) n = Some (x, f) -> AgentModel.lf_attr env x = None ->
    AgentModel.lf_get_commands env a o = Err PyAttributeError) /\
  (forall X F U (a : AgentModel.policy_agent X F U) (o : SimulatorModel.simobs X F), AgentModel.pa_name a = None -> AgentModel.pa_get_commands a o = Err PyKeyError).
Proof.
  split; [|split].
  - intros X F PP G Lane env a o H. unfold AgentModel.lf_get_commands. rewrite H. reflexivity.
  - intros X F PP G Lane env a o n x f H A B. unfold AgentModel.lf_get_commands. rewrite H. unfold agetE. rewrite A, B. reflexivity.
  - intros X F U a o H. unfold AgentModel.pa_get_commands. rewrite H. reflexivity.
Qed.

(** The geometry of a spacecraft whose front axle is not nearer than its rear axle is an
    AssertionError. *)
Lemma C129_spacecraft_pf : forall w lf lr, (lr <= lf)%R -> DrawModel.spacecraft_geometry_init w lf lr = Err PyAssertionError.
Proof.
  intros w lf lr H. unfold DrawModel.spacecraft_geometry_init, LaneModel.ltb. destruct (Rlt_dec lf lr); [lra| reflexivity].
Qed.

(** Drawing: the lights of a vehicle without colours are a TypeError; a rocket or
    spaceship with the commands of another model is an AttributeError; no trajectories a
    ValueError; another number of colours than trajectories an AssertionError; a goal
    that is no polygon and a record without the field asked for are AttributeErrors. *)
Lemma C129_drawings_pf :
  (forall q g, DrawModel.plot_lights q None g = Err PyTypeError) /\
  (forall uu quad models name b col state command lc mp lp pw pl, aget String.eqb models name = Some (b, col) ->
    match state, b with
    | DrawModel.SRocket _ _ _ _, DrawModel.BRocket _ _ => (forall l r, command <> DrawModel.CRocket l r)
    | DrawModel.SSpaceship _ _ _ _, DrawModel.BSpaceship _ _ => (forall t, command <> DrawModel.CSpaceship t)
    | _, _ => False
    end -> DrawModel.plot_player uu quad models name state command lc mp lp pw pl = Err PyAttributeError) /\
  (forall models name col h, aget String.eqb models name = Some col -> DrawModel.plot_trajectories models name [] h None = Err PyValueError) /\
  (forall models name col trs h cs, aget String.eqb models name = Some col -> length cs <> length trs -> DrawModel.plot_trajectories models name trs h (Some cs) = Err PyAssertionError) /\
  (forall models missions name t box m col sh, aget String.eqb missions name = Some m -> aget String.eqb models name = Some col -> DrawModel.mi_static m = false -> DrawModel.mi_geometry m t = Ok sh ->
    (forall e h, sh <> DrawModel.Polygon e h) -> DrawModel.plot_timevarying_goals models missions name t box = Err PyAttributeError) /\
  (forall T V (log : DrawModel.record_log T V) field e r, log = e :: r -> aget String.eqb (snd e) field = None -> DrawModel.column T V log field = Err PyAttributeError).
Proof.
  split; [reflexivity|]. split.
  { intros uu quad models name b col state command lc mp lp pw pl A H. unfold DrawModel.plot_player, agetE. rewrite A. cbn. destruct state; try contradiction; destruct b; try contradiction; destruct command; try reflexivity; exfalso; eapply H; reflexivity. }
  split; [intros models name col h A; unfold DrawModel.plot_trajectories, agetE; rewrite A; reflexivity|].
  split.
  { intros models name col trs h cs A N. unfold DrawModel.plot_trajectories, agetE. rewrite A. cbn. rewrite (proj2 (Nat.eqb_neq _ _) N). reflexivity. }
  split.
  { intros models missions name t box m col sh A B C D E. unfold DrawModel.plot_timevarying_goals, agetE. rewrite A. cbn. rewrite C, B. cbn. rewrite D. cbn. destruct sh; try reflexivity. exfalso. eapply E. reflexivity. }
  intros T V log field e r -> A. unfold DrawModel.column. cbn. rewrite A. reflexivity.
Qed.

Lemma relatives_known {X F} (K : CtrlModel.kin X) (l : list (nat * (X * F))) x0 :
  (forall p x f, In (p, (x, f)) l -> CtrlModel.relative K x0 x <> None) ->
  exists rs, rmapM (fun e : nat * (X * F) => match CtrlModel.relative K x0 (fst (snd e)) with None => Err ZValueError | Some r => Ok (fst e, r) end) l = Ok rs /\ akeys rs = akeys l.
Proof.
  induction l as [|[p [x f]] r IH]; intros H; [exists []; split; reflexivity|].
  destruct IH as (rs & E & K1); [intros q y g I; apply (H q y g); right; exact I|].
  cbn [rmapM fst snd]. destruct (CtrlModel.relative K x0 x) as [rel|] eqn:R; [|exfalso; exact (H p x f (or_introl eq_refl) R)].
  rewrite E. exists ((p, rel) :: rs). split; [reflexivity|]. unfold akeys in *. cbn. rewrite K1. reflexivity.
Qed.

Lemma yielding_known {X F} (K : CtrlModel.kin X) sp me rs (l : list (nat * (X * F))) :
  (forall p x f, In (p, (x, f)) l -> In p (akeys rs)) -> (forall p x f, In (p, (x, f)) l -> p <> me -> CtrlModel.vx_of K x <> None) ->
  exists y, CtrlModel.anyone_to_yield_to K sp me rs l = Ok y.
Proof.
  intros A B. induction l as [|[p [x f]] r IH]; [exists false; reflexivity|]. cbn [CtrlModel.anyone_to_yield_to].
  destruct IH as [y Y]; [intros q z g I; apply (A q z g); right; exact I| intros q z g I; apply (B q z g); right; exact I|].
  destruct (Nat.eqb_spec p me) as [->|N]; [exists y; exact Y|].
  destruct (In_keys_dget rs p (A p x f (or_introl eq_refl))) as [rel E]. unfold agetE. rewrite E.
  destruct (CtrlModel.vx_of K x) as [v|] eqn:V; [|exfalso; exact (B p x f (or_introl eq_refl) N V)].
  destruct (_ && CtrlModel.nearer _ _); [exists true; reflexivity| exists y; exact Y].
Qed.

(** Behaviour and steering: a player whose own state has no speed, while all the other
    states can be read, is an AttributeError; the steering for a lookahead of zero is a
    ZeroDivisionError. *)
Lemma C129_control_pf :
  (forall X F (K : CtrlModel.kin X) sp me (l : list (nat * (X * F))) mine, aget Nat.eqb l me = Some mine ->
    (forall p x f, In (p, (x, f)) l -> CtrlModel.relative K (fst mine) x <> None) -> (forall p x f, In (p, (x, f)) l -> p <> me -> CtrlModel.vx_of K x <> None) ->
    CtrlModel.vx_of K (fst mine) = None -> CtrlModel.get_speed_ref K sp me (Some l) = Err PyAttributeError) /\
  (forall minimize c pose along path, PursuitModel.pu_pose c = Some (pose, along) -> PursuitModel.pu_path c = Some path -> PursuitModel.get_lookahead c = 0%R -> PursuitModel.get_desired_steering minimize c = Err PyZeroDivisionError).
Proof.
  split.
  - intros X F K sp me l mine A B C D. unfold CtrlModel.get_speed_ref, agetE. rewrite A.
    destruct (relatives_known K l (fst mine) B) as (rs & E & KK). rewrite E.
    destruct (yielding_known K sp me rs l) as [y Y]; [intros p x f I; rewrite KK; apply (in_map fst) in I; exact I| exact C|].
    rewrite Y, D. reflexivity.
  - intros minimize c pose along path A B L. unfold PursuitModel.get_desired_steering. rewrite A, B. destruct (PursuitModel.find_goal_point minimize c path pose along) as [u v].
    destruct (GeoModel.translation_angle_from_SE2 v) as [p th]. cbv zeta. destruct (Req_EM_T _ 0) as [|N]; [reflexivity|]. rewrite L.
    destruct (Req_EM_T (0 / _) 0) as [|M]; [reflexivity| exfalso; apply M; unfold Rdiv; apply Rmult_0_l].
Qed.
