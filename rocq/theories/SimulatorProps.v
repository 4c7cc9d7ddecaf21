(* Generated from tools/Simulator.src by tools/gen_props.py. *)
(** Properties C20-C30: the simulator loop (sim/simulator.py) and its logs
    (sim/simulator_structures.py).

    [started c s0]: a Simulator object that never ran was given the valid
    context [c] and initialised the episode; [after s0 k s]: [s] is the state
    after [k] iterations of the main loop.  The [world] (agents, models, goals,
    sensors, shapely, collision resolution) is universally quantified. *)
From Coq Require Import QArith Qcanon ZArith List Bool Arith Lia Sorted.
From Verif Require Import Base Num SeqModel SeqSpec SeqProofs SeqProofs2 DictLemmas SimulatorModel SimulatorSpec
  SimulatorProofs SimulatorProofs2 SimulatorProofs3 SimulatorProofs4 SimulatorProofs5 SimulatorProofs6 SimulatorProofs7
  SimulatorProofs8 SimulatorWorld.
Import ListNotations.
Open Scope Qc_scope.
From Verif Require Import SimulatorMain.

(** ** C20 *)

Theorem C20_time_is_the_dt_grid : forall W (c : ctx W) s0 k s, started c s0 -> 0 < dt (g_param (c_cfg c)) -> after s0 k s ->
  time s = c_time c + qn k * dt (g_param (c_cfg c)).
Proof. exact C20_time_is_the_dt_grid_pf. Qed.
Print Assumptions C20_time_is_the_dt_grid.

(** The state log of [p] after [k] iterations: increasing times; one sample per
    iteration [p] was active in, holding the state before that iteration, and
    one more at the end of the iteration in which [p] left. *)
Theorem C20_each_tick_logged_once : forall W (c : ctx W) s0 k s p, started c s0 -> 0 < dt (g_param (c_cfg c)) -> after s0 k s ->
  In p (akeys (c_models c)) ->
  StronglySorted Qclt (map fst (states_log s p)) /\
  forall t x, In (t, x) (states_log s p) <->
    (exists i si, (i < k)%nat /\ after s0 i si /\ active si p /\ t = time si /\ state_of si p = Some x) \/
    (exists i si si', (i < k)%nat /\ after s0 i si /\ after s0 (S i) si' /\ active si p /\ ~ active si' p /\
        t = time si' /\ state_of si' p = Some x).
Proof. exact C20_each_tick_logged_once_pf. Qed.
Print Assumptions C20_each_tick_logged_once.

Example C20_ex : started ctx1 start1 /\ 0 < dt (g_param (c_cfg ctx1)) /\ after start1 4 (nth_st start1 4) /\
  map (fun a => (this (fst a), this (snd a))) (states_log (nth_st start1 4) 1)
    = [(0#1, 0#1); (1#2, 1#2); (1#1, 1#1)]%Q /\
  map (fun a => (this (fst a), this (snd a))) (states_log (nth_st start1 4) 2)
    = [(0#1, 4#1); (1#2, 7#2); (1#1, 3#1); (3#2, 5#2)]%Q.
Proof.
  split; [exact started1|]. split; [exact dt1|]. split; [apply after1; lia|]. split; vm_compute; reflexivity.
Qed.

(** ** C21 *)

(** As soon as [fuel] iterations cover the time limit, [run] has ended (with a
    result or an exception). *)
Theorem C21_run_ends : forall W (c : ctx W) m fuel, valid_ctx c -> unused m -> 0 < dt (g_param (c_cfg c)) ->
  (0 < fuel)%nat -> max_sim_time (g_param (c_cfg c)) < c_time c + qn fuel * dt (g_param (c_cfg c)) ->
  run fuel m c <> None.
Proof. exact C21_run_ends_pf. Qed.
Print Assumptions C21_run_ends.

(** Such a number of iterations always exists. *)
Theorem C21_run_always_ends : forall W (c : ctx W) m, valid_ctx c -> unused m -> 0 < dt (g_param (c_cfg c)) ->
  exists fuel r, run fuel m c = Some r.
Proof. exact C21_run_always_ends_pf. Qed.
Print Assumptions C21_run_always_ends.

(** No iteration after the first starts beyond the time limit. *)
Theorem C21_no_iteration_past_the_limit : forall W (c : ctx W) s0 k s, started c s0 -> 0 < dt (g_param (c_cfg c)) ->
  after s0 (S k) s -> c_term (cx s) = false -> time s <= max_sim_time (g_param (c_cfg c)).
Proof. exact C21_no_iteration_past_the_limit_pf. Qed.
Print Assumptions C21_no_iteration_past_the_limit.

Example C21_ex : valid_ctx ctx1 /\ unused (new_simulator (W := line)) /\ 0 < dt (g_param (c_cfg ctx1)) /\
  max_sim_time (g_param (c_cfg ctx1)) < c_time ctx1 + qn 7 * dt (g_param (c_cfg ctx1)) /\
  (exists s, run 7 new_simulator ctx1 = Some (Ok s) /\ time s = qf 7 2) /\ run 6 new_simulator ctx1 = None.
Proof.
  split; [apply started1|]. split; [reflexivity|]. split; [exact dt1|]. split; [vm_compute; reflexivity|]. split.
  - destruct (get_ok (fun s => qeqb (time s) (qf 7 2)) (run 7 new_simulator ctx1)) as (s & E1 & E2); [vm_compute; reflexivity|].
    exists s. split; [exact E1|]. apply qeqb_eq; exact E2.
  - apply get_running. vm_compute. reflexivity.
Qed.

(** ** C22 *)

(** In each iteration every active player whose request is due (none yet, or
    the last one at least dt_commands ago) is asked once, at the current time;
    nobody else is asked. *)
Theorem C22_asked_exactly_when_due : forall W (c : ctx W) s0 k s s' p, started c s0 -> 0 < dt (g_param (c_cfg c)) ->
  after s0 k s -> c_term (cx s) = false -> step s = Ok s' ->
  (active s p -> due s p -> exists full o u, asks s' p = asks s p ++ [(time s, full, o, u)]) /\
  (~ (active s p /\ due s p) -> asks s' p = asks s p).
Proof. exact C22_asked_exactly_when_due_pf. Qed.
Print Assumptions C22_asked_exactly_when_due.

(** The first request of every player is at the start time. *)
Theorem C22_first_request_at_start : forall W (c : ctx W) s0 k s p, started c s0 -> 0 < dt (g_param (c_cfg c)) ->
  after s0 (S k) s -> In p (akeys (c_models c)) -> exists a r, asks s p = a :: r /\ ask_t a = c_time c.
Proof. exact C22_first_request_at_start_pf. Qed.
Print Assumptions C22_first_request_at_start.

(** Consecutive requests are at least dt_commands apart, on the grid, and there
    is no earlier grid point at that distance. *)
Theorem C22_requests_spaced : forall W (c : ctx W) s0 k s p pre a b suf, started c s0 -> 0 < dt (g_param (c_cfg c)) -> after s0 k s ->
  asks s p = pre ++ a :: b :: suf ->
  dt_commands (g_param (c_cfg c)) <= ask_t b - ask_t a /\ ask_t a < ask_t b /\
  (exists j, ask_t b = c_time c + qn j * dt (g_param (c_cfg c))) /\
  (forall j, ask_t a < c_time c + qn j * dt (g_param (c_cfg c)) -> c_time c + qn j * dt (g_param (c_cfg c)) < ask_t b ->
     c_time c + qn j * dt (g_param (c_cfg c)) - ask_t a < dt_commands (g_param (c_cfg c))).
Proof. exact C22_requests_spaced_pf. Qed.
Print Assumptions C22_requests_spaced.

(** All active players have been asked at the same times. *)
Theorem C22_players_asked_together : forall W (c : ctx W) s0 k s p q, started c s0 -> 0 < dt (g_param (c_cfg c)) -> after s0 k s ->
  active s p -> active s q -> map ask_t (asks s p) = map ask_t (asks s q).
Proof. exact C22_players_asked_together_pf. Qed.
Print Assumptions C22_players_asked_together.

(** Every model is stepped once per iteration it is active in, over dt. *)
Theorem C22_model_stepped_each_iteration : forall W (c : ctx W) s0 k s s' p, started c s0 -> 0 < dt (g_param (c_cfg c)) ->
  after s0 k s -> c_term (cx s) = false -> step s = Ok s' ->
  (active s p -> exists u m m1, model_of s p = Some m /\ model_step W m u (dt (g_param (c_cfg c))) = Ok m1 /\
                   moves s' p = moves s p ++ [(time s, u, m, m1)] /\
                   (resolution_keeps_footprint W -> exists m2, model_of s' p = Some m2 /\ footprint W m2 = footprint W m1) /\
                   (c_term (cx s') = true \/ ~ active s' p -> model_of s' p = Some m1)) /\
  (~ active s p -> moves s' p = moves s p /\ model_of s' p = model_of s p).
Proof. exact C22_model_stepped_each_iteration_pf. Qed.
Print Assumptions C22_model_stepped_each_iteration.

(** Commands are held: the command of every step is the one returned at the
    latest request at or before that step. *)
Theorem C22_command_held : forall W (c : ctx W) s0 k s p t u m m', started c s0 -> 0 < dt (g_param (c_cfg c)) -> after s0 k s ->
  In (t, u, m, m') (moves s p) ->
  exists pre a suf, asks s p = pre ++ a :: suf /\ ask_cmd a = u /\ ask_t a <= t /\ (forall b, In b suf -> t < ask_t b).
Proof. exact C22_command_held_pf. Qed.
Print Assumptions C22_command_held.

(** The command log has exactly the requests. *)
Theorem C22_command_log_is_requests : forall W (c : ctx W) s0 k s p, started c s0 -> 0 < dt (g_param (c_cfg c)) -> after s0 k s ->
  In p (akeys (c_models c)) -> commands_log s p = map (fun a => (ask_t a, ask_cmd a)) (asks s p).
Proof. exact C22_command_log_is_requests_pf. Qed.
Print Assumptions C22_command_log_is_requests.

Example C22_ex : started ctx1 start1 /\ after start1 5 (nth_st start1 5) /\
  map (fun a => this (ask_t a)) (asks (nth_st start1 5) 2) = [0#1; 1#1; 2#1]%Q /\
  map (fun a => this (ask_t a)) (asks (nth_st start1 5) 1) = [0#1]%Q /\
  map (fun a => this (move_t a)) (moves (nth_st start1 5) 2) = [0#1; 1#2; 1#1; 3#2; 2#1]%Q /\
  due (nth_st start1 2) 2 /\ ~ due (nth_st start1 3) 2.
Proof.
  split; [exact started1|]. split; [apply after1; lia|]. split; [vm_compute; reflexivity|]. split; [vm_compute; reflexivity|].
  split; [vm_compute; reflexivity|].
  rewrite <- !dueb_spec. split; vm_compute; [reflexivity|discriminate].
Qed.

(** ** C23 *)

(** An active player leaves in an iteration iff its goal holds in the state its
    model reached in that iteration, at the new time. *)
Theorem C23_leaves_iff_goal_fulfilled : forall W (c : ctx W) s0 k s s' p, started c s0 -> 0 < dt (g_param (c_cfg c)) ->
  after s0 k s -> c_term (cx s) = false -> step s = Ok s' -> active s p ->
  (~ active s' p <-> exists g u m m1, dget (g_missions (c_cfg c)) p = Some g /\ moves s' p = moves s p ++ [(time s, u, m, m1)] /\
       goal_done W g (get_state W m1) (time s') = Ok true) /\
  (~ active s' p -> exists x, state_of s' p = Some x /\ exists l, states_log s' p = l ++ [(time s', x)]).
Proof. exact C23_leaves_iff_goal_fulfilled_pf. Qed.
Print Assumptions C23_leaves_iff_goal_fulfilled.

(** Once inactive, a player stays inactive: not asked, not stepped, not logged,
    its model untouched, in no collision check and in no observation. *)
Theorem C23_gone_for_good : forall W (c : ctx W) s0 k s p n s', started c s0 -> 0 < dt (g_param (c_cfg c)) -> after s0 k s -> ~ active s p ->
  after s n s' ->
  ~ active s' p /\ asks s' p = asks s p /\ moves s' p = moves s p /\ logger_of s' p = logger_of s p /\ model_of s' p = model_of s p /\
  (exists np, pairs_of (ev s') = pairs_of (ev s) ++ np /\ forall a b t, In (a, b, t) np -> a <> p /\ b <> p) /\
  (exists ne, envs_of (ev s') = envs_of (ev s) ++ ne /\ forall a i t, In (a, i, t) ne -> a <> p) /\
  (forall q, exists na, asks s' q = asks s q ++ na /\ forall a, In a na -> dget (o_players (ask_seen a)) p = None).
Proof. exact C23_gone_for_good_pf. Qed.
Print Assumptions C23_gone_for_good.

Theorem C23_no_mission_never_leaves : forall W (c : ctx W) s0 k s p, started c s0 -> 0 < dt (g_param (c_cfg c)) -> after s0 k s ->
  In p (akeys (c_models c)) -> dget (g_missions (c_cfg c)) p = None -> active s p.
Proof. exact C23_no_mission_never_leaves_pf. Qed.
Print Assumptions C23_no_mission_never_leaves.

Example C23_ex : after start1 1 (nth_st start1 1) /\ active (nth_st start1 1) 1 /\ ~ active (nth_st start1 2) 1 /\
  after start1 6 (nth_st start1 6) /\ active (nth_st start1 6) 2 /\ active (nth_st start1 6) 3.
Proof.
  split; [apply after1; lia|]. split; [vm_compute; auto|]. split; [vm_compute; intuition discriminate|].
  split; [apply after1; lia|]. split; vm_compute; auto.
Qed.

(** ** C24 *)

(** A run that raises, raises what user code raised: no exception comes from
    the simulator's own bookkeeping (logs, dict lookups). *)
Theorem C24_only_user_code_raises : forall W (c : ctx W) m fuel e, valid_ctx c -> unused m -> 0 < dt (g_param (c_cfg c)) ->
  sensors_ok c -> query_ok (W := W) (g_scen (c_cfg c)) ->
  run fuel m c = Some (Err e) -> user_raises W e.
Proof. exact C24_only_user_code_raises_pf. Qed.
Print Assumptions C24_only_user_code_raises.

(** A run that returns has written, for every model of the context, a log whose
    samples are those recorded during the loop. *)
Theorem C24_every_player_gets_its_log : forall W (c : ctx W) m fuel sf, valid_ctx c -> unused m -> 0 < dt (g_param (c_cfg c)) ->
  run fuel m c = Some (Ok sf) ->
  exists s0 k s, started c s0 /\ after s0 k s /\ c_term (cx s) = true /\ (forall i si, (i < k)%nat -> after s0 i si -> c_term (cx si) = false) /\
  ev sf = ev s /\ time sf = time s /\
  forall p, In p (akeys (c_models c)) -> exists pl, dget (c_log (cx sf)) p = Some pl /\
    iter (pl_states pl) = states_log s p /\ iter (pl_commands pl) = commands_log s p /\
    iter (pl_extra pl) = extra_log s p /\ iter (pl_info pl) = info_log s p /\
    StronglySorted Qclt (tss (pl_states pl)) /\ StronglySorted Qclt (tss (pl_commands pl)) /\
    StronglySorted Qclt (tss (pl_extra pl)) /\ StronglySorted Qclt (tss (pl_info pl)).
Proof. exact C24_every_player_gets_its_log_pf. Qed.
Print Assumptions C24_every_player_gets_its_log.

Example C24_ex : exists s pl, run 7 new_simulator ctx1 = Some (Ok s) /\ dget (c_log (cx s)) 1%nat = Some pl /\
  tss (pl_commands pl) = [qz 0] /\ tss (pl_states pl) = [qz 0; qf 1 2; qz 1].
Proof.
  destruct (get_ok (fun s => match dget (c_log (cx s)) 1%nat with Some pl => qs_eqb (tss (pl_commands pl)) [0#1]%Q && qs_eqb (tss (pl_states pl)) [0#1; 1#2; 1#1]%Q | _ => false end)
    (run 7 new_simulator ctx1)) as (s & E1 & E2); [vm_compute; reflexivity|].
  apply get_some in E2 as (pl & E2 & E3). apply andb_true_iff in E3 as [E3 E4]. apply qs_eqb_eq in E3. apply qs_eqb_eq in E4.
  exists s, pl. split; [exact E1|]. split; [exact E2|]. split; [exact E3|exact E4].
Qed.

(** ** C25 *)

(** Each request comes from an iteration in which the player was active; its
    sensor was given the snapshot of all active players' states before anybody
    moved in that iteration, stamped with the current time, and the agent got
    what the sensor returned. *)
Theorem C25_observations_are_snapshots : forall W (c : ctx W) s0 k s p a, started c s0 -> 0 < dt (g_param (c_cfg c)) -> after s0 k s ->
  In a (asks s p) -> exists i si f f' ag ag', (i < k)%nat /\ after s0 i si /\ active si p /\ ask_t a = time si /\
     snapshot si (ask_seen a) /\ get_sensor (cx si) p = Ok f /\
     sense W f (g_scen (c_cfg c)) (ask_seen a) p = Ok (f', ask_given a) /\
     dget (c_players (cx si)) p = Some ag /\ agent_cmds W ag (ask_given a) = Ok (ag', ask_cmd a).
Proof. exact C25_observations_are_snapshots_pf. Qed.
Print Assumptions C25_observations_are_snapshots.

(** All players asked at one time are shown the same full observation. *)
Theorem C25_same_view_for_all : forall W (c : ctx W) s0 k s p q a b, started c s0 -> 0 < dt (g_param (c_cfg c)) -> after s0 k s ->
  In a (asks s p) -> In b (asks s q) -> ask_t a = ask_t b -> ask_seen a = ask_seen b.
Proof. exact C25_same_view_for_all_pf. Qed.
Print Assumptions C25_same_view_for_all.

(** Later iterations never change what was delivered earlier. *)
Theorem C25_delivered_observations_are_final : forall W (c : ctx W) s0 k s n s' p, started c s0 -> 0 < dt (g_param (c_cfg c)) ->
  after s0 k s -> after s n s' -> exists later, asks s' p = asks s p ++ later.
Proof. exact C25_delivered_observations_are_final_pf. Qed.
Print Assumptions C25_delivered_observations_are_final.

Example C25_ex : exists a b, In a (asks (nth_st start1 5) 2) /\ In b (asks (nth_st start1 5) 3) /\ ask_t a = qz 1 /\ ask_t b = qz 1 /\
  akeys (o_players (ask_seen a)) = [2; 3]%nat /\ map (fun x => fst (snd x)) (o_players (ask_seen a)) = [qz 3; qf 7 2].
Proof.
  destruct (get_some (fun a => qeqb (ask_t (W := line) a) (qz 1) && nats_eqb (akeys (o_players (ask_seen a))) [2; 3]%nat &&
     qs_eqb (map (fun x => fst (snd x)) (o_players (ask_seen (W := line) a))) [3#1; 7#2]%Q) (nth_error (asks (nth_st start1 5) 2) 1)) as (a & Ea & H); [vm_compute; reflexivity|].
  destruct (get_some (fun a => qeqb (ask_t (W := line) a) (qz 1)) (nth_error (asks (nth_st start1 5) 3) 1)) as (b & Eb & Hb); [vm_compute; reflexivity|].
  apply andb_true_iff in H as [H H3]. apply andb_true_iff in H as [H1 H2]. apply qeqb_eq in H1. apply qeqb_eq in Hb. apply qs_eqb_eq in H3.
  exists a, b. split; [eapply nth_error_In; exact Ea|]. split; [eapply nth_error_In; exact Eb|]. split; [exact H1|]. split; [exact Hb|].
  split; [apply nats_eqb_eq; exact H2|exact H3].
Qed.

(** ** C26 *)

(** A context whose run has not been marked finished stops for one of the
    documented reasons, true of the context [run] leaves behind. *)
Theorem C26_stops_only_for_a_reason : forall W (c : ctx W) m fuel sf, valid_ctx c -> unused m -> 0 < dt (g_param (c_cfg c)) ->
  c_term c = false -> run fuel m c = Some (Ok sf) -> stop_reason (cx sf).
Proof. exact C26_stops_only_for_a_reason_pf. Qed.
Print Assumptions C26_stops_only_for_a_reason.

(** After every iteration the run is over iff one of the reasons holds (reports
    stamped with the current time, nonnegative time after collision). *)
Theorem C26_over_iff_reason : forall W (c : ctx W) s0 k s, started c s0 -> 0 < dt (g_param (c_cfg c)) ->
  reports_stamped W -> 0 <= after_collision (g_param (c_cfg c)) ->
  after s0 (S k) s -> (c_term (cx s) = true <-> stop_reason (cx s)).
Proof. exact C26_over_iff_reason_pf. Qed.
Print Assumptions C26_over_iff_reason.

Example C26_ex : reports_stamped line /\ 0 <= after_collision (g_param (c_cfg ctx1)) /\ after start1 7 (nth_st start1 7) /\
  c_term (cx (nth_st start1 7)) = true /\ after start1 6 (nth_st start1 6) /\ c_term (cx (nth_st start1 6)) = false.
Proof.
  split; [split; [intros sc p q t a b r H; injection H as <-; reflexivity|intros p ob t m r H; injection H as <-; reflexivity]|].
  split; [vm_compute; discriminate|]. split; [apply after1; lia|]. split; [vm_compute; reflexivity|]. split; [apply after1; lia|vm_compute; reflexivity].
Qed.

(** ** C27 *)

(** In an iteration that does not end the run, exactly the unordered pairs of
    distinct remaining players whose footprints intersect are resolved, each
    once; an iteration that ends the run resolves none. *)
Theorem C27_every_touching_pair_once : forall W (c : ctx W) s0 k s s', started c s0 -> 0 < dt (g_param (c_cfg c)) ->
  resolution_keeps_footprint W -> (forall f g, intersects W f g = intersects W g f) ->
  after s0 k s -> c_term (cx s) = false -> step s = Ok s' ->
  exists np, pairs_of (ev s') = pairs_of (ev s) ++ map (fun pq => (fst pq, snd pq, time s')) np /\
    NoDup np /\ (forall p q, In (p, q) np -> ~ In (q, p) np) /\
    (c_term (cx s') = true -> np = []) /\
    (c_term (cx s') = false -> forall p q, (In (p, q) np \/ In (q, p) np) <->
        p <> q /\ active s' p /\ active s' q /\ touches s' p q = true).
Proof. exact C27_every_touching_pair_once_pf. Qed.
Print Assumptions C27_every_touching_pair_once.

(** The reports of the context are those it started with followed by one per
    collision call that yielded a report (or an empty one naming the players if
    the geometry failed), in call order. *)
Theorem C27_reports_are_the_calls : forall W (c : ctx W) s0 k s, started c s0 -> 0 < dt (g_param (c_cfg c)) -> after s0 k s ->
  c_reports (cx s) = c_reports c ++ expected_reports (ev s).
Proof. exact C27_reports_are_the_calls_pf. Qed.
Print Assumptions C27_reports_are_the_calls.

(** Reports are in time order, within the simulated time; first_collision_ts is
    the time of the earliest one. *)
Theorem C27_reports_in_time_order : forall W (c : ctx W) s0 k s, started c s0 -> 0 < dt (g_param (c_cfg c)) -> reports_stamped W ->
  c_reports c = [] -> c_first c = None -> after s0 k s ->
  StronglySorted (fun r r' : report (w_D W) => r_time r <= r_time r') (c_reports (cx s)) /\
  (forall r, In r (c_reports (cx s)) -> c_time c < r_time r /\ r_time r <= time s) /\
  (c_reports (cx s) = [] -> c_first (cx s) = None) /\
  (c_reports (cx s) <> [] -> exists r, In r (c_reports (cx s)) /\ c_first (cx s) = Some (r_time r) /\
     forall r', In r' (c_reports (cx s)) -> r_time r <= r_time r').
Proof. exact C27_reports_in_time_order_pf. Qed.
Print Assumptions C27_reports_in_time_order.

Example C27_ex : resolution_keeps_footprint line /\ (forall f g, intersects line f g = intersects line g f) /\
  after start1 3 (nth_st start1 3) /\
  map (fun a => (fst a, this (snd a))) (pairs_of (ev (nth_st start1 3))) = [((2%nat, 3%nat), 1#2); ((2%nat, 3%nat), 1#1); ((2%nat, 3%nat), 3#2)]%Q /\
  option_map this (c_first (cx (nth_st start1 3))) = Some (1#2)%Q /\ length (c_reports (cx (nth_st start1 3))) = 5%nat.
Proof.
  split; [split; [intros sc p q t a b a' b' H; injection H as <- <-; auto|reflexivity]|].
  split; [intros f g; apply near_sym|].
  split; [apply after1; lia|]. split; [vm_compute; reflexivity|]. split; vm_compute; reflexivity.
Qed.

(** ** C28 *)

(** In an iteration that does not end the run, every remaining player is
    resolved against exactly the obstacles the spatial index returns for it, in
    order, before the player-player checks. *)
Theorem C28_every_environment_candidate : forall W (c : ctx W) s0 k s s', started c s0 -> 0 < dt (g_param (c_cfg c)) ->
  resolution_keeps_footprint W -> after s0 k s -> c_term (cx s) = false -> step s = Ok s' ->
  envs_of (ev s') = envs_of (ev s) ++
    (if c_term (cx s') then []
     else flat_map (fun p => map (fun i => (p, i, time s')) (env_candidates s' p)) (akeys (c_players (cx s')))).
Proof. exact C28_every_environment_candidate_pf. Qed.
Print Assumptions C28_every_environment_candidate.

(** Only players still active are checked, at the current time (no assumption
    on the resolution). *)
Theorem C28_only_active_players : forall W (c : ctx W) s0 k s s' p i t, started c s0 -> 0 < dt (g_param (c_cfg c)) ->
  after s0 k s -> c_term (cx s) = false -> step s = Ok s' ->
  In (p, i, t) (envs_of (ev s')) -> In (p, i, t) (envs_of (ev s)) \/ (active s' p /\ t = time s' /\ c_term (cx s') = false).
Proof. exact C28_only_active_players_pf. Qed.
Print Assumptions C28_only_active_players.

(** A moving obstacle's collisions with the environment leave no report; those
    of other players do (C27_reports_are_the_calls says which). *)
Theorem C28_moving_obstacles_not_reported : forall W p i t out (l : list (event W)),
  expected_reports (EEnv p i t true out :: l) = expected_reports l /\
  (forall r, expected_reports (EEnv p i t false (Ok (Some r)) :: l) = expected_reports l ++ [r]) /\
  (forall e, expected_reports (EEnv p i t false (Err e) :: l) = expected_reports l ++ [mkRep [p] t None]) /\
  expected_reports (EEnv p i t false (Ok None) :: l) = expected_reports l.
Proof. exact C28_moving_obstacles_not_reported_pf. Qed.
Print Assumptions C28_moving_obstacles_not_reported.

Example C28_ex : map (fun a => (fst a, this (snd a))) (envs_of (ev (nth_st start1 3))) = [((2%nat, 0%nat), 3#2); ((3%nat, 0%nat), 3#2)]%Q.
Proof. vm_compute. reflexivity. Qed.

(** ** C29 *)

(** Simulator objects that never ran behave alike, whatever earlier simulators
    left in the class attributes they share. *)
Theorem C29_new_simulators_are_independent : forall W (c : ctx W) m m' fuel, valid_ctx c -> 0 < dt (g_param (c_cfg c)) -> unused m -> unused m' ->
  match run fuel m c, run fuel m' c with
  | None, None => True
  | Some (Ok s), Some (Ok s') => cx s = cx s' /\ ev s = ev s'
  | Some (Err e), Some (Err e') => e = e'
  | _, _ => False
  end.
Proof. exact C29_new_simulators_are_independent_pf. Qed.
Print Assumptions C29_new_simulators_are_independent.

(** Reusing the same object is not equivalent to making a new one: the second
    run fails with KeyError on a fresh context that a new object handles. *)
Theorem C29_reuse_refuted : exists W (c c2 : ctx W) fuel sf sf2,
  valid_ctx c /\ valid_ctx c2 /\ c_term c2 = false /\
  run fuel new_simulator c = Some (Ok sf) /\
  run fuel (sm sf) c2 = Some (Err PyKeyError) /\ run fuel new_simulator c2 = Some (Ok sf2).
Proof. exact C29_reuse_refuted_pf. Qed.
Print Assumptions C29_reuse_refuted.

(** On the same context it silently never asks anybody: models are driven by
    the last commands of the first run and the command log is empty. *)
Theorem C29_reuse_silent_refuted : exists W (c : ctx W) fuel sf sf2 p,
  valid_ctx c /\ In p (akeys (c_models c)) /\
  run fuel new_simulator c = Some (Ok sf) /\ run fuel (sm sf) c = Some (Ok sf2) /\
  asks sf2 p = [] /\ moves sf2 p <> [] /\ asks sf p <> [].
Proof. exact C29_reuse_silent_refuted_pf. Qed.
Print Assumptions C29_reuse_silent_refuted.

Example C29_ex : exists m : simulator line, unused m /\ s_cmds m <> [] /\ valid_ctx ctx1.
Proof. exists (mkSim (W := line) (mkObs [] 0) None [(1%nat, qz 5)] []). split; [reflexivity|]. split; [discriminate|apply started1]. Qed.

(** ** C30 *)

(** get_init_time / get_last_time: defined iff there is at least one log and no
    state log is empty; then the least / greatest logged time. *)
Theorem C30_init_time_is_least : forall W (l : list (player * plog W)),
  (forall p pl, In (p, pl) l -> obtainable (pl_states pl)) ->
  ((exists t, simlog_init_time l = Ok t) <-> l <> [] /\ forall p pl, In (p, pl) l -> tss (pl_states pl) <> []) /\
  forall t, simlog_init_time l = Ok t ->
    (exists p pl, In (p, pl) l /\ In t (tss (pl_states pl))) /\ (forall p pl u, In (p, pl) l -> In u (tss (pl_states pl)) -> t <= u).
Proof. exact C30_init_time_is_least_pf. Qed.
Print Assumptions C30_init_time_is_least.

Theorem C30_last_time_is_greatest : forall W (l : list (player * plog W)),
  (forall p pl, In (p, pl) l -> obtainable (pl_states pl)) ->
  ((exists t, simlog_last_time l = Ok t) <-> l <> [] /\ forall p pl, In (p, pl) l -> tss (pl_states pl) <> []) /\
  forall t, simlog_last_time l = Ok t ->
    (exists p pl, In (p, pl) l /\ In t (tss (pl_states pl))) /\ (forall p pl u, In (p, pl) l -> In u (tss (pl_states pl)) -> u <= t).
Proof. exact C30_last_time_is_greatest_pf. Qed.
Print Assumptions C30_last_time_is_greatest.

(** SimLog.at_interp: one entry per player, in order, with the interpolated
    state, the latest command and computation time at or before [t], and the
    latest extra if there is one. *)
Theorem C30_at_interp_contract : forall W mulX addX (l : list (player * plog W)) t r,
  (forall p pl, In (p, pl) l -> obtainable (pl_states pl) /\ obtainable (pl_commands pl) /\ obtainable (pl_extra pl) /\ obtainable (pl_info pl)) ->
  simlog_at_interp mulX addX l t = Ok r ->
  Forall2 (fun ppl pe => fst pe = fst ppl /\
    interp_rel mulX addX (pl_states (snd ppl)) t (le_state (snd pe)) /\
    is_prev_sample (pl_commands (snd ppl)) t (le_commands (snd pe)) /\
    is_prev_sample (pl_info (snd ppl)) t (le_info (snd pe)) /\
    match le_extra (snd pe) with
    | Some x => is_prev_sample (pl_extra (snd ppl)) t x
    | None => forall u, In u (tss (pl_extra (snd ppl))) -> t < u
    end) l r.
Proof. exact C30_at_interp_contract_pf. Qed.
Print Assumptions C30_at_interp_contract.

(** It is defined for every [t] at or after the first command and computation
    time of every player. *)
Theorem C30_at_interp_defined : forall W mulX addX (l : list (player * plog W)) t,
  (forall p pl, In (p, pl) l -> obtainable (pl_states pl) /\ obtainable (pl_commands pl) /\ obtainable (pl_extra pl) /\ obtainable (pl_info pl)) ->
  (forall p pl, In (p, pl) l -> tss (pl_states pl) <> [] /\ (exists u, In u (tss (pl_commands pl)) /\ u <= t) /\ (exists u, In u (tss (pl_info pl)) /\ u <= t)) ->
  exists r, simlog_at_interp mulX addX l t = Ok r.
Proof. exact C30_at_interp_defined_pf. Qed.
Print Assumptions C30_at_interp_defined.

(** Before a player's first command the query fails as undefined. *)
Theorem C30_undefined_before_first_command : forall W mulX addX p (pl : plog W) t,
  obtainable (pl_states pl) -> obtainable (pl_commands pl) -> obtainable (pl_extra pl) -> tss (pl_states pl) <> [] ->
  tss (pl_commands pl) <> [] -> (forall u, In u (tss (pl_commands pl)) -> t < u) ->
  simlog_at_interp mulX addX [(p, pl)] t = Err UndefinedAtTime.
Proof. exact C30_undefined_before_first_command_pf. Qed.
Print Assumptions C30_undefined_before_first_command.

Example C30_ex : match run 7 new_simulator ctx1 with
  | Some (Ok s) =>
      match simlog_init_time (c_log (cx s)), simlog_last_time (c_log (cx s)), simlog_at_interp (W := line) Qcmult Qcplus (c_log (cx s)) (qf 5 4) with
      | Ok a, Ok b, Ok l => (this a = 0#1 /\ this b = 3#1 /\
          map (fun pe : nat * log_entry line => (fst pe, this (le_state (snd pe)), this (le_commands (snd pe)), le_extra (snd pe))) l
          = [(1%nat, 1#1, 1#1, Some 7%nat); (2%nat, 11#4, -1#1, Some 7%nat); (3%nat, 25#8, -3#2, Some 7%nat)])%Q
      | _, _, _ => False
      end
  | _ => False
  end.
Proof. vm_compute. repeat split. Qed.
