(** Model of src/dg_commons/sim/simulator.py and of the log structures of
    src/dg_commons/sim/simulator_structures.py.

    External code (agents, vehicle models, goals, sensors, shapely predicates,
    collision resolution, the CPU clock) is a [world]: a record of arbitrary
    types and functions over which every theorem quantifies.

    Simplifications: player names are [nat] (only equality of names is used);
    every dict value is its own object (no agent/model/sensor object shared by
    two players); agents and sensors do not mutate the objects they are given
    (HeapModel.v has objects that can be written, C111 relates the two);
    logger messages are dropped. *)
From Coq Require Import QArith Qcanon ZArith List Bool Arith Lia.
From Verif Require Import Base Num SeqModel.
Import ListNotations.
Open Scope Qc_scope.

Notation player := nat.

(** SimObservations of PlayerObservations, simulator_structures.py:42-53. *)
Record simobs (X F : Type) := mkObs { o_players : list (player * (X * F)); o_time : Qc }.
Arguments mkObs {X F}. Arguments o_players {X F}. Arguments o_time {X F}.

(** CollisionReport, collision_structures.py:46-59: the names, the time and the
    remaining data ([None] for [get_empty]). *)
Record report (D : Type) := mkRep { r_players : list player; r_time : Qc; r_data : option D }.
Arguments mkRep {D}. Arguments r_players {D}. Arguments r_time {D}. Arguments r_data {D}.

(** External code.
    The objects that the simulator calls, simulator.py:68-269: agents, sensors, models, goals and collisions. *)
Record world := mkWorld {
  w_X : Type;      (* states *)
  w_U : Type;      (* commands *)
  w_M : Type;      (* SimModel objects *)
  w_A : Type;      (* Agent objects *)
  w_G : Type;      (* PlanningGoal objects *)
  w_S : Type;      (* ObsFilter objects *)
  w_F : Type;      (* shapely footprints *)
  w_O : Type;      (* StaticObstacle *)
  w_E : Type;      (* extras *)
  w_I : Type;      (* computation time *)
  w_D : Type;      (* report contents *)
  w_scen : Type;   (* DgScenario *)
  (* SimModel.get_state, simulator_structures.py:205-206 (a deep copy: a value) *)
  get_state : w_M -> w_X;
  (* SimModel.get_footprint, 161-164 *)
  footprint : w_M -> w_F;
  (* shapely's intersects *)
  intersects : w_F -> w_F -> bool;
  (* isinstance(model, DynObstacleModel) *)
  is_dyn : w_M -> bool;
  (* SimModel.update(commands, dt), 156-159 *)
  model_step : w_M -> w_U -> Qc -> result w_M;
  (* Agent.on_episode_init(InitSimObservations(name, seed, scenario, goal, geometry and params)) *)
  agent_init : w_A -> player -> nat -> w_scen -> option w_G -> w_M -> result w_A;
  (* Agent.get_commands *)
  agent_cmds : w_A -> simobs w_X w_F -> result (w_A * w_U);
  (* Agent.on_get_extra *)
  agent_extra : w_A -> result (w_A * option w_E);
  (* PlanningGoal.is_fulfilled(state, at) *)
  goal_done : w_G -> w_X -> Qc -> result bool;
  (* ObsFilter.sense(scenario, full_obs, pov) *)
  sense : w_S -> w_scen -> simobs w_X w_F -> player -> result (w_S * simobs w_X w_F);
  (* IdObsFilter() made by the default sensors dict, simulator.py:39 *)
  id_filter : w_S;
  (* toc - tic of perf_counter, simulator.py:139-141: arbitrary *)
  cpu_time : player -> Qc -> w_I;
  (* strtree_obstacles.query(shape, predicate="intersects"), simulator.py:209 *)
  env_query : w_scen -> w_F -> list nat;
  (* dg_scenario.static_obstacles *)
  obstacles : w_scen -> list w_O;
  (* resolve_collision(p1, p2, sim_context): the two models after it (it may
     have changed them before raising) and its outcome *)
  resolve : w_scen -> player -> player -> Qc -> w_M -> w_M -> (w_M * w_M) * result (option (report w_D));
  (* resolve_collision_with_environment(p, model, obstacle, time) *)
  resolve_env : player -> w_O -> Qc -> w_M -> w_M * result (option (report w_D))
}.

(** SimParameters, simulator_structures.py:30-39. *)
Record sim_param := mkParam { dt : Qc; dt_commands : Qc; max_sim_time : Qc; after_collision : Qc }.
Definition default_param : sim_param := mkParam (qf 5 100) (qf 1 10) (qz 6) 0.

(** Python dicts keyed by player name.  Used for [same_keys], simulator.py:56-65. *)
Notation dget := (aget Nat.eqb).
Notation dgetE := (agetE Nat.eqb).
Notation dset := (aset Nat.eqb).
Notation ddel := (adel Nat.eqb).
Definition dmem {V} (d : list (player * V)) (p : player) : bool :=
  match dget d p with Some _ => true | None => false end.

Section Sim.
Context {W : world}.

Notation X := (w_X W). Notation U := (w_U W). Notation M := (w_M W).
Notation A := (w_A W). Notation G := (w_G W). Notation S_ := (w_S W).
Notation F := (w_F W). Notation E := (w_E W). Notation I := (w_I W).
Notation D := (w_D W).

(** PlayerLogger, simulator_structures.py:106-123 (its builders are
    subscripted, so the sequences are typed). *)
Record plogger := mkLogger
  { lg_states : builder X; lg_commands : builder U; lg_extra : builder E; lg_info : builder I }.
(** PlayerLog, simulator_structures.py:82-89. *)
Record plog := mkLog
  { pl_states : seq X; pl_commands : seq U; pl_extra : seq E; pl_info : seq I }.

(** Used for [init_player], simulator.py:86-97. *)
Definition new_logger : plogger := mkLogger b_empty b_empty b_empty b_empty.

(** PlayerLogger.as_sequence, simulator_structures.py:115-123. *)
Definition logger_as_sequence (l : plogger) : result plog :=
  match as_sequence (lg_states l) with Err e => Err e | Ok a =>
  match as_sequence (lg_commands l) with Err e => Err e | Ok b =>
  match as_sequence (lg_extra l) with Err e => Err e | Ok c =>
  match as_sequence (lg_info l) with Err e => Err e | Ok d => Ok (mkLog a b c d)
  end end end end.

(** The parts of SimContext the simulator never assigns, simulator.py:29-54. *)
Record config := mkConfig {
  g_scen : w_scen W; g_param : sim_param; g_missions : list (player * G);
  g_sensors_default : bool;  (* sensors is the default defaultdict *)
  g_seed : nat }.

(** SimContext, simulator.py:22-54.  [c_first = None] is SimTime("Infinity"). *)
Record ctx := mkCtx {
  c_cfg : config;
  c_models : list (player * M);
  c_players : list (player * A);
  c_sensors : list (player * S_);
  c_log : list (player * plog);
  c_time : Qc;
  c_term : bool;
  c_reports : list (report D);
  c_first : option Qc }.

(** The attributes of a Simulator object, simulator.py:76-80.
    [s_last = None] is SimTime("-Infinity"). *)
Record simulator := mkSim {
  s_obs : simobs X F;
  s_last : option Qc;
  s_cmds : list (player * U);
  s_logs : list (player * plogger) }.

(** Class attributes of a program in which no simulator ran yet.  simulator.py:77-80. *)
Definition new_simulator : simulator := mkSim (mkObs [] 0) None [] [].

(** Ghost record of the calls the simulator makes to external code, newest
    first.  Nothing reads it.  The calls are in simulator.py:86-253. *)
Inductive event :=
| EAsk (p : player) (t : Qc) (full o : simobs X F) (u : U)  (* sense full -> o; get_commands o -> u *)
| EMove (p : player) (t : Qc) (u : U) (m m' : M)            (* model.update(u, dt) took m to m' *)
| ELeave (p : player) (t : Qc)                              (* goal fulfilled, player popped *)
| EEnv (p : player) (i : nat) (t : Qc) (dyn : bool) (out : result (option (report D)))
                                                            (* resolve_collision_with_environment gave out *)
| EPair (p q : player) (t : Qc) (out : result (option (report D))).  (* resolve_collision gave out *)

(** Used for [update], simulator.py:128-155; [ask], simulator.py:135-147. *)
Record st := mkSt { cx : ctx; sm : simulator; ev : list event }.

(** Used for [update], simulator.py:128-155; [need_commands], simulator.py:267-269; [update_player], simulator.py:132-152. *)
Definition time (s : st) : Qc := c_time (cx s).
Definition param (s : st) : sim_param := g_param (c_cfg (cx s)).

(** SimContext.__post_init__, simulator.py:56-65.  The [issubclass] checks hold
    by typing. *)
Definition same_keys {V V'} (a : list (player * V)) (b : list (player * V')) : bool :=
  forallb (fun k => dmem b k) (akeys a) && forallb (fun k => dmem a k) (akeys b).
Definition ctx_post_init (c : ctx) : result unit :=
  if negb (same_keys (c_models c) (c_players c)) then Err PyAssertionError
  else if negb (forallb (fun p => dmem (c_models c) p) (akeys (g_missions (c_cfg c))))
  then Err PyAssertionError else Ok tt.

(** _need_to_update_commands, simulator.py:267-269. *)
Definition need_commands (s : st) : bool :=
  match s_last (sm s) with
  | None => true      (* time - (-Infinity) = Infinity >= dt_commands *)
  | Some l => qleb (dt_commands (param s)) (time s - l)
  end.

(** Field updates.
    Used for [ask], simulator.py:135-147; [maybe_terminate], simulator.py:174-195; [update], simulator.py:128-155. *)
Definition upd_cx (s : st) (c : ctx) : st := mkSt c (sm s) (ev s).
Definition upd_sm (s : st) (m : simulator) : st := mkSt (cx s) m (ev s).
Definition add_ev (s : st) (e : event) : st := mkSt (cx s) (sm s) (e :: ev s).
Definition set_models (c : ctx) (v : list (player * M)) : ctx :=
  mkCtx (c_cfg c) v (c_players c) (c_sensors c) (c_log c) (c_time c) (c_term c) (c_reports c) (c_first c).
Definition set_players (c : ctx) (v : list (player * A)) : ctx :=
  mkCtx (c_cfg c) (c_models c) v (c_sensors c) (c_log c) (c_time c) (c_term c) (c_reports c) (c_first c).
Definition set_sensors (c : ctx) (v : list (player * S_)) : ctx :=
  mkCtx (c_cfg c) (c_models c) (c_players c) v (c_log c) (c_time c) (c_term c) (c_reports c) (c_first c).
Definition set_log (c : ctx) (v : list (player * plog)) : ctx :=
  mkCtx (c_cfg c) (c_models c) (c_players c) (c_sensors c) v (c_time c) (c_term c) (c_reports c) (c_first c).
Definition set_time (c : ctx) (v : Qc) : ctx :=
  mkCtx (c_cfg c) (c_models c) (c_players c) (c_sensors c) (c_log c) v (c_term c) (c_reports c) (c_first c).
Definition set_term (c : ctx) (v : bool) : ctx :=
  mkCtx (c_cfg c) (c_models c) (c_players c) (c_sensors c) (c_log c) (c_time c) v (c_reports c) (c_first c).
Definition set_reports (c : ctx) (r : list (report D)) (f : option Qc) : ctx :=
  mkCtx (c_cfg c) (c_models c) (c_players c) (c_sensors c) (c_log c) (c_time c) (c_term c) r f.
Definition set_obs (m : simulator) (o : simobs X F) : simulator := mkSim o (s_last m) (s_cmds m) (s_logs m).
Definition set_last (m : simulator) (l : option Qc) : simulator := mkSim (s_obs m) l (s_cmds m) (s_logs m).
Definition set_cmds (m : simulator) (v : list (player * U)) : simulator := mkSim (s_obs m) (s_last m) v (s_logs m).
Definition set_logs (m : simulator) (v : list (player * plogger)) : simulator := mkSim (s_obs m) (s_last m) (s_cmds m) v.

(** pre_update, simulator.py:108-126. *)
Definition observe (ms : list (player * M)) (p : player) : result (player * (X * F)) :=
  match dgetE ms p with
  | Err e => Err e
  | Ok m => Ok (p, (get_state W m, footprint W m))
  end.
Definition pre_update (s : st) : result st :=
  if need_commands s then
    match rmapM (observe (c_models (cx s))) (akeys (c_players (cx s))) with
    | Err e => Err e
    | Ok obs => Ok (upd_sm s (set_obs (sm s) (mkObs obs (time s))))
    end
  else Ok s.

(** [sim_context.sensors[player_name]]: a plain dict raises KeyError, the
    default defaultdict inserts an IdObsFilter.  Used for [ask], simulator.py:135-147. *)
Definition get_sensor (c : ctx) (p : player) : result S_ :=
  match dget (c_sensors c) p with
  | Some f => Ok f
  | None => if g_sensors_default (c_cfg c) then Ok (id_filter W) else Err PyKeyError
  end.

(** [self.simlogger[p].<builder>.add(...)]: look up, add, store back.
    Used for [ask], simulator.py:135-147; [update_player], simulator.py:132-152; [remove_finished1], simulator.py:258-265. *)
Definition with_logger (s : st) (p : player) (f : plogger -> result plogger) : result st :=
  match dgetE (s_logs (sm s)) p with
  | Err e => Err e
  | Ok l => match f l with
            | Err e => Err e
            | Ok l' => Ok (upd_sm s (set_logs (sm s) (dset (s_logs (sm s)) p l')))
            end
  end.
Definition log_state (t : Qc) (x : X) (l : plogger) : result plogger :=
  match b_add (lg_states l) t x with
  | Err e => Err e
  | Ok b => Ok (mkLogger b (lg_commands l) (lg_extra l) (lg_info l)) end.
Definition log_command (t : Qc) (u : U) (l : plogger) : result plogger :=
  match b_add (lg_commands l) t u with
  | Err e => Err e
  | Ok b => Ok (mkLogger (lg_states l) b (lg_extra l) (lg_info l)) end.
Definition log_info (t : Qc) (i : I) (l : plogger) : result plogger :=
  match b_add (lg_info l) t i with
  | Err e => Err e
  | Ok b => Ok (mkLogger (lg_states l) (lg_commands l) (lg_extra l) b) end.
Definition log_extra (t : Qc) (x : E) (l : plogger) : result plogger :=
  match b_add (lg_extra l) t x with
  | Err e => Err e
  | Ok b => Ok (mkLogger (lg_states l) (lg_commands l) b (lg_info l)) end.

(** The body of [if self._need_to_update_commands], simulator.py:135-147, for
    player [p] at time [t]. *)
Definition ask (s : st) (p : player) (t : Qc) : result st :=
  match get_sensor (cx s) p with Err e => Err e | Ok f =>
  match sense W f (g_scen (c_cfg (cx s))) (s_obs (sm s)) p with Err e => Err e | Ok (f', o) =>
  match dgetE (c_players (cx s)) p with Err e => Err e | Ok a =>
  match agent_cmds W a o with Err e => Err e | Ok (a', u) =>
  let s1 := mkSt (set_players (set_sensors (cx s) (dset (c_sensors (cx s)) p f'))
                              (dset (c_players (cx s)) p a'))
                 (set_cmds (sm s) (dset (s_cmds (sm s)) p u))
                 (EAsk p t (s_obs (sm s)) o u :: ev s) in
  match with_logger s1 p (log_command t u) with Err e => Err e | Ok s2 =>
  match with_logger s2 p (log_info t (cpu_time W p t)) with Err e => Err e | Ok s3 =>
  match agent_extra W a' with Err e => Err e | Ok (a'', x) =>
  let s4 := upd_cx s3 (set_players (cx s3) (dset (c_players (cx s3)) p a'')) in
  match x with
  | None => Ok s4
  | Some v => with_logger s4 p (log_extra t v)
  end end end end end end end end.

(** One iteration of the loop of update, simulator.py:132-152. *)
Definition update_player (t : Qc) (s : st) (p : player) : result st :=
  match dgetE (c_models (cx s)) p with Err e => Err e | Ok m0 =>
  match with_logger s p (log_state t (get_state W m0)) with Err e => Err e | Ok s1 =>
  match (if need_commands s1 then ask s1 p t else Ok s1) with Err e => Err e | Ok s2 =>
  match dgetE (s_cmds (sm s2)) p with Err e => Err e | Ok u =>
  match dgetE (c_models (cx s2)) p with Err e => Err e | Ok m =>
  match model_step W m u (dt (param s2)) with Err e => Err e | Ok m' =>
  Ok (mkSt (set_models (cx s2) (dset (c_models (cx s2)) p m')) (sm s2) (EMove p t u m m' :: ev s2))
  end end end end end end.

(** update, simulator.py:128-155.  The iterated dict keeps its keys during the
    loop. *)
Definition update (s : st) : result st :=
  let t := time s in
  match rfold (update_player t) s (akeys (c_players (cx s))) with
  | Err e => Err e
  | Ok s' => if need_commands s' then Ok (upd_sm s' (set_last (sm s') (Some t))) else Ok s'
  end.

(** One iteration of _remove_finished_players, simulator.py:258-265. *)
Definition remove_finished1 (s : st) (pm : player * G) : result st :=
  let '(p, m) := pm in
  if dmem (c_players (cx s)) p then
    match dgetE (c_models (cx s)) p with Err e => Err e | Ok md =>
    let x := get_state W md in
    match goal_done W m x (time s) with Err e => Err e | Ok false => Ok s | Ok true =>
    match with_logger s p (log_state (time s) x) with Err e => Err e | Ok s1 =>
    Ok (mkSt (set_players (cx s1) (ddel (c_players (cx s1)) p)) (sm s1) (ELeave p (time s) :: ev s1))
    end end end
  else Ok s.
Definition remove_finished (s : st) : result st :=
  rfold remove_finished1 s (g_missions (c_cfg (cx s))).

(** [time > first_collision_ts + sim_time_after_collision] with an infinite
    first collision time, simulator.py:185. *)
Definition past_collision (t : Qc) (first : option Qc) (after : Qc) : bool :=
  match first with None => false | Some f => qltb (f + after) t end.

(** _maybe_terminate_simulation, simulator.py:174-195. *)
Definition termination (c : ctx) : bool :=
  let cond := qltb (max_sim_time (g_param (c_cfg c))) (c_time c)
              || past_collision (c_time c) (c_first c) (after_collision (g_param (c_cfg c)))
              || match c_players c with [] => true | _ => false end in
  if negb cond then
    match g_missions (c_cfg c) with
    | [] => false
    | ms => forallb (fun pn => negb (dmem (c_players c) pn)) (akeys ms)
    end
  else cond.
Definition maybe_terminate (s : st) : st := upd_cx s (set_term (cx s) (termination (cx s))).

(** [if t < first_collision_ts: first_collision_ts = t].
    Used for [check_env1], simulator.py:210-224; [check_pair], simulator.py:239-253. *)
Definition earlier (t : Qc) (first : option Qc) : option Qc :=
  match first with None => Some t | Some f => if qltb t f then Some t else Some f end.

(** Loop over the candidate obstacles of one player, simulator.py:210-224. *)
Definition check_env1 (p : player) (s : st) (idx : nat) : result st :=
  match dgetE (c_models (cx s)) p with Err e => Err e | Ok m =>
  match item (obstacles W (g_scen (c_cfg (cx s)))) idx with Err e => Err e | Ok ob =>
  let '(m', out) := resolve_env W p ob (time s) m in
  let s1 := mkSt (set_models (cx s) (dset (c_models (cx s)) p m')) (sm s) (EEnv p idx (time s) (is_dyn W m') out :: ev s) in
  match (match out with
         | Ok r => Ok r
         | Err CollisionException => Ok (Some (mkRep [p] (time s) None))
         | Err e => Err e
         end) with
  | Err e => Err e
  | Ok None => Ok s1
  | Ok (Some r) =>
      if is_dyn W m' then Ok s1
      else Ok (upd_cx s1 (set_reports (cx s1) (c_reports (cx s1) ++ [r]) (earlier (time s) (c_first (cx s1)))))
  end end end.
Definition check_env_player (s : st) (p : player) : result st :=
  match dgetE (c_models (cx s)) p with Err e => Err e | Ok m =>
  rfold (check_env1 p) s (env_query W (g_scen (c_cfg (cx s))) (footprint W m))
  end.
(** _check_collisions_with_environment, simulator.py:197-225. *)
Definition check_env (s : st) : result st :=
  rfold check_env_player s (akeys (c_players (cx s))).

(** itertools.combinations(l, 2).  Used for [check_players], simulator.py:239-253. *)
Fixpoint combinations2 {B} (l : list B) : list (B * B) :=
  match l with
  | [] => []
  | x :: r => map (pair x) r ++ combinations2 r
  end.

(** Loop body of _check_collisions_among_players, simulator.py:239-253. *)
Definition check_pair (s : st) (pq : player * player) : result st :=
  let '(p, q) := pq in
  match dgetE (c_models (cx s)) p with Err e => Err e | Ok a =>
  match dgetE (c_models (cx s)) q with Err e => Err e | Ok b =>
  if intersects W (footprint W a) (footprint W b) then
    let '((a', b'), out) := resolve W (g_scen (c_cfg (cx s))) p q (time s) a b in
    let s1 := mkSt (set_models (cx s) (dset (dset (c_models (cx s)) p a') q b')) (sm s)
                   (EPair p q (time s) out :: ev s) in
    match (match out with
           | Ok r => Ok r
           | Err CollisionException => Ok (Some (mkRep [p; q] (time s) None))
           | Err e => Err e
           end) with
    | Err e => Err e
    | Ok None => Ok s1
    | Ok (Some r) =>
        Ok (upd_cx s1 (set_reports (cx s1) (c_reports (cx s1) ++ [r]) (earlier (r_time r) (c_first (cx s1)))))
    end
  else Ok s
  end end.
Definition check_players (s : st) : result st :=
  rfold check_pair s (combinations2 (akeys (c_players (cx s)))).

(** post_update, simulator.py:157-172. *)
Definition post_update (s : st) : result st :=
  let s1 := upd_cx s (set_time (cx s) (time s + dt (param s))) in
  match remove_finished s1 with Err e => Err e | Ok s2 =>
  let s3 := maybe_terminate s2 in
  if c_term (cx s3) then Ok s3
  else match check_env s3 with Err e => Err e | Ok s4 => check_players s4 end
  end.

(** One iteration of the loop of run, simulator.py:100-102. *)
Definition step (s : st) : result st :=
  match pre_update s with Err e => Err e | Ok s1 =>
  match update s1 with Err e => Err e | Ok s2 => post_update s2 end end.

(** Episode initialisation, simulator.py:86-97. *)
Definition init_player (s : st) (p : player) : result st :=
  match dgetE (c_players (cx s)) p with Err e => Err e | Ok a =>
  match dgetE (c_models (cx s)) p with Err e => Err e | Ok m =>
  match agent_init W a p (g_seed (c_cfg (cx s))) (g_scen (c_cfg (cx s)))
                   (dget (g_missions (c_cfg (cx s))) p) m with Err e => Err e | Ok a' =>
  Ok (mkSt (set_players (cx s) (dset (c_players (cx s)) p a'))
           (set_logs (sm s) (dset (s_logs (sm s)) p new_logger)) (ev s))
  end end end.
Definition init_run (c : ctx) (m : simulator) : result st :=
  rfold init_player (mkSt c m []) (akeys (c_players c)).

(** The while loop, simulator.py:99-102, with at most [fuel] iterations;
    [None] means it is still running. *)
Fixpoint loop (fuel : nat) (s : st) : option (result st) :=
  if c_term (cx s) then Some (Ok s)
  else match fuel with
       | O => None
       | S f => match step s with Err e => Some (Err e) | Ok s' => loop f s' end
       end.

(** Writing the logs, simulator.py:104-105. *)
Definition write_log (s : st) (p : player) : result st :=
  match dgetE (s_logs (sm s)) p with Err e => Err e | Ok l =>
  match logger_as_sequence l with Err e => Err e | Ok q =>
  Ok (upd_cx s (set_log (cx s) (dset (c_log (cx s)) p q)))
  end end.
Definition write_logs (s : st) : result st := rfold write_log s (akeys (c_models (cx s))).

(** Simulator.run, simulator.py:82-106. *)
Definition run (fuel : nat) (m : simulator) (c : ctx) : option (result st) :=
  match init_run c m with
  | Err e => Some (Err e)
  | Ok s0 => match loop fuel s0 with
             | None => None
             | Some (Err e) => Some (Err e)
             | Some (Ok s) => Some (write_logs s)
             end
  end.

(** SimLog.at_interp / get_init_time / get_last_time and PlayerLog.at_interp,
    simulator_structures.py:91-103, 135-145.  [min]/[max] of an empty list
    raises ValueError. *)
Record log_entry := mkEntry { le_state : X; le_commands : U; le_extra : option E; le_info : I }.
Definition plog_at_interp (mulX : X -> Qc -> X) (addX : X -> X -> X) (l : plog) (t : Qc) : result log_entry :=
  match (match at_or_previous (pl_extra l) t with
         | Ok x => Ok (Some x)
         | Err UndefinedAtTime | Err ZValueError => Ok None
         | Err e => Err e
         end) with Err e => Err e | Ok extra =>
  match at_interp mulX addX (pl_states l) t with Err e => Err e | Ok x =>
  match at_or_previous (pl_commands l) t with Err e => Err e | Ok u =>
  match at_or_previous (pl_info l) t with Err e => Err e | Ok i => Ok (mkEntry x u extra i)
  end end end end.
Definition simlog_at_interp (mulX : X -> Qc -> X) (addX : X -> X -> X) (l : list (player * plog)) (t : Qc)
  : result (list (player * log_entry)) :=
  rmapM (fun '(p, pl) => match plog_at_interp mulX addX pl t with Err e => Err e | Ok x => Ok (p, x) end) l.
Definition min_list (l : list Qc) : result Qc :=
  match l with [] => Err PyValueError | x :: r => Ok (fold_left qmin r x) end.
Definition max_list (l : list Qc) : result Qc :=
  match l with [] => Err PyValueError | x :: r => Ok (fold_left qmax r x) end.
Definition simlog_init_time (l : list (player * plog)) : result Qc :=
  match rmapM (fun pl => get_start (pl_states (snd pl))) l with Err e => Err e | Ok ts => min_list ts end.
Definition simlog_last_time (l : list (player * plog)) : result Qc :=
  match rmapM (fun pl => get_end (pl_states (snd pl))) l with Err e => Err e | Ok ts => max_list ts end.

End Sim.
Arguments plogger W : clear implicits. Arguments plog W : clear implicits.
Arguments config W : clear implicits. Arguments ctx W : clear implicits.
Arguments simulator W : clear implicits. Arguments event W : clear implicits.
Arguments st W : clear implicits. Arguments log_entry W : clear implicits.
