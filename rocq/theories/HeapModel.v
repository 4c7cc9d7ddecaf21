(** The simulator of src/dg_commons/sim/simulator.py with objects and
    references: which object the models, the observations and the logs hold, who
    may write to it, and what a later write changes.

    SimulatorModel.v passes values around.  Here a state and a commands object
    has an identity (a natural number) and a current content (the memory), so
    that [deepcopy], [self._state = ...], [self._state.vx = ...] and an agent
    writing to an object it was given are different operations.

    Dataclasses of states and of commands are mutable (models/vehicle.py:22,68
    and the same line of the other models); those of geometries, parameters and
    observations are frozen (models/model_structures.py:42,74,
    simulator_structures.py:42,48), so the latter stay values here.

    External code is an [hworld]: arbitrary types and functions over which every
    theorem quantifies.  Simplifications: scenario, goals, footprints, extras
    and computation times are values; a goal does not keep or write the state it
    is shown; logger messages are dropped. *)
From Coq Require Import QArith Qcanon List Bool Arith.
From Verif Require Import Base Num SeqModel SimulatorModel.
Import ListNotations.
Open Scope Qc_scope.

(** The objects of a running program: content of the state objects and of the
    commands objects, how many of each exist, and the state objects some agent
    holds a reference to.  Used for [hst], simulator.py:22-54. *)
Record memory (X U : Type) := mkMem {
  m_x : nat -> X; m_nx : nat; m_u : nat -> U; m_nu : nat; m_seen : list nat }.
Arguments mkMem {X U}. Arguments m_x {X U}. Arguments m_nx {X U}. Arguments m_u {X U}.
Arguments m_nu {X U}. Arguments m_seen {X U}.

(** [obj.field = ...]: the content of one object changes.
    Used for [h_get_state], simulator_structures.py:205-206; [h_update_player], simulator.py:132-152. *)
Definition put {V} (h : nat -> V) (r : nat) (v : V) : nat -> V :=
  fun r' => if Nat.eqb r' r then v else h r'.

Section Mem.
Context {X U : Type}.
(** A new object with content [x], e.g. the result of [deepcopy].
    Used for [h_get_state], simulator_structures.py:205-206; [h_update_player], simulator.py:132-152; [h_ask], simulator.py:135-147. *)
Definition new_x (m : memory X U) (x : X) : memory X U * nat :=
  (mkMem (put (m_x m) (m_nx m) x) (S (m_nx m)) (m_u m) (m_nu m) (m_seen m), m_nx m).
Definition new_u (m : memory X U) (u : U) : memory X U * nat :=
  (mkMem (m_x m) (m_nx m) (put (m_u m) (m_nu m) u) (S (m_nu m)) (m_seen m), m_nu m).
Definition write_x (m : memory X U) (r : nat) (x : X) : memory X U :=
  mkMem (put (m_x m) r x) (m_nx m) (m_u m) (m_nu m) (m_seen m).
Definition write_u (m : memory X U) (r : nat) (u : U) : memory X U :=
  mkMem (m_x m) (m_nx m) (put (m_u m) r u) (m_nu m) (m_seen m).
Definition show_x (m : memory X U) (r : nat) : memory X U :=
  mkMem (m_x m) (m_nx m) (m_u m) (m_nu m) (r :: m_seen m).

(** What the code of an agent can do to the memory: create a commands object,
    write to a commands object, write to a state object it was given.
    Used for [h_ask], simulator.py:135-147. *)
Inductive instr := INew (u : U) | IWriteU (r : nat) (u : U) | IWriteX (r : nat) (x : X).
Definition exec1 (m : memory X U) (i : instr) : memory X U :=
  match i with
  | INew u => fst (new_u m u)
  | IWriteU r u => if Nat.ltb r (m_nu m) then write_u m r u else m
  | IWriteX r x => if existsb (Nat.eqb r) (m_seen m) then write_x m r x else m
  end.
Definition exec (m : memory X U) (l : list instr) : memory X U := fold_left exec1 l m.

(** The object an agent returns: a new one or one that exists.
    Used for [h_ask], simulator.py:135-147. *)
Inductive cmd_ret := RNew (u : U) | ROld (r : nat).
Definition returned (m : memory X U) (c : cmd_ret) : result (memory X U * nat) :=
  match c with
  | RNew u => Ok (new_u m u)
  | ROld r => if Nat.ltb r (m_nu m) then Ok (m, r) else Err PyOther
  end.
End Mem.
Arguments instr : clear implicits. Arguments cmd_ret : clear implicits.

(** External code.  A model object is its state object and the rest ([h_B]:
    geometry, parameters, has_collided).
    Used for [hconfig], simulator.py:29-54; [h_observe], simulator.py:116-119. *)
Record hworld := mkHW {
  h_X : Type; h_U : Type; h_B : Type; h_A : Type; h_G : Type; h_S : Type; h_F : Type;
  h_O : Type; h_E : Type; h_I : Type; h_D : Type; h_scen : Type;
  h_footprint : h_X * h_B -> h_F;
  h_intersects : h_F -> h_F -> bool;
  h_is_dyn : h_X * h_B -> bool;
  (* SimModel.update: content of the new state object, e.g. models/vehicle.py:185-194 *)
  h_step : h_X * h_B -> h_U -> Qc -> result (h_X * h_B);
  h_init : h_A -> player -> nat -> h_scen -> option h_G -> h_B -> result h_A;
  (* Agent.get_commands: it is given references, may read the memory, and says
     what it writes and which object it returns *)
  h_agent : h_A -> simobs nat h_F -> memory h_X h_U -> result (h_A * list (instr h_X h_U) * cmd_ret h_U);
  (* Agent.on_get_extra *)
  h_extra : h_A -> memory h_X h_U -> result (h_A * list (instr h_X h_U) * option h_E);
  h_goal : h_G -> h_X -> Qc -> result bool;
  (* ObsFilter.sense: the references it lets through *)
  h_sense : h_S -> h_scen -> simobs nat h_F -> memory h_X h_U -> player -> result (h_S * simobs nat h_F);
  h_idf : h_S;
  h_cpu : player -> Qc -> h_I;
  h_query : h_scen -> h_F -> list nat;
  h_obstacles : h_scen -> list h_O;
  (* contents and rest of the two models after resolve_collision (set_velocity
     writes into the state object, models/vehicle.py:251-256) *)
  h_resolve : h_scen -> player -> player -> Qc -> h_X * h_B -> h_X * h_B ->
              ((h_X * h_B) * (h_X * h_B)) * result (option (report h_D));
  h_resolve_env : player -> h_O -> Qc -> h_X * h_B -> (h_X * h_B) * result (option (report h_D))
}.

Section Heap.
Context {H : hworld}.
Notation X := (h_X H). Notation U := (h_U H). Notation B := (h_B H).
Notation A := (h_A H). Notation G := (h_G H). Notation S_ := (h_S H).
Notation F := (h_F H). Notation E := (h_E H). Notation I := (h_I H). Notation D := (h_D H).

(** PlayerLogger, simulator_structures.py:106-123: the builders hold references. *)
Record hlogger := mkK {
  k_states : builder nat; k_commands : builder nat; k_extra : builder E; k_info : builder I }.
Definition new_hlogger : hlogger := mkK b_empty b_empty b_empty b_empty.
(** PlayerLog, simulator_structures.py:82-89. *)
Record hplog := mkHLog { p_states : seq nat; p_commands : seq nat; p_extra : seq E; p_info : seq I }.

(** The parts of SimContext never assigned, simulator.py:29-54. *)
Record hconfig := mkHCfg {
  hc_scen : h_scen H; hc_param : sim_param; hc_missions : list (player * G);
  hc_sensors_default : bool; hc_seed : nat }.

(** Memory, SimContext (simulator.py:22-54) and Simulator (76-80). *)
Record hst := mkHst {
  t_mem : memory X U;
  t_models : list (player * (nat * B)); t_players : list (player * A); t_sensors : list (player * S_);
  t_log : list (player * hplog); t_time : Qc; t_term : bool; t_reports : list (report D); t_first : option Qc;
  t_obs : simobs nat F; t_last : option Qc; t_cmds : list (player * nat); t_logs : list (player * hlogger) }.

(** Used for [h_get_state], simulator_structures.py:205-206; [h_observe], simulator.py:116-119; [h_update_player], simulator.py:132-152. *)
Definition st_mem s m := mkHst m (t_models s) (t_players s) (t_sensors s) (t_log s) (t_time s) (t_term s) (t_reports s) (t_first s) (t_obs s) (t_last s) (t_cmds s) (t_logs s).
Definition st_models s v := mkHst (t_mem s) v (t_players s) (t_sensors s) (t_log s) (t_time s) (t_term s) (t_reports s) (t_first s) (t_obs s) (t_last s) (t_cmds s) (t_logs s).
Definition st_players s v := mkHst (t_mem s) (t_models s) v (t_sensors s) (t_log s) (t_time s) (t_term s) (t_reports s) (t_first s) (t_obs s) (t_last s) (t_cmds s) (t_logs s).
Definition st_sensors s v := mkHst (t_mem s) (t_models s) (t_players s) v (t_log s) (t_time s) (t_term s) (t_reports s) (t_first s) (t_obs s) (t_last s) (t_cmds s) (t_logs s).
Definition st_log s v := mkHst (t_mem s) (t_models s) (t_players s) (t_sensors s) v (t_time s) (t_term s) (t_reports s) (t_first s) (t_obs s) (t_last s) (t_cmds s) (t_logs s).
Definition st_time s v := mkHst (t_mem s) (t_models s) (t_players s) (t_sensors s) (t_log s) v (t_term s) (t_reports s) (t_first s) (t_obs s) (t_last s) (t_cmds s) (t_logs s).
Definition st_term s v := mkHst (t_mem s) (t_models s) (t_players s) (t_sensors s) (t_log s) (t_time s) v (t_reports s) (t_first s) (t_obs s) (t_last s) (t_cmds s) (t_logs s).
Definition st_reports s r f := mkHst (t_mem s) (t_models s) (t_players s) (t_sensors s) (t_log s) (t_time s) (t_term s) r f (t_obs s) (t_last s) (t_cmds s) (t_logs s).
Definition st_obs s v := mkHst (t_mem s) (t_models s) (t_players s) (t_sensors s) (t_log s) (t_time s) (t_term s) (t_reports s) (t_first s) v (t_last s) (t_cmds s) (t_logs s).
Definition st_last s v := mkHst (t_mem s) (t_models s) (t_players s) (t_sensors s) (t_log s) (t_time s) (t_term s) (t_reports s) (t_first s) (t_obs s) v (t_cmds s) (t_logs s).
Definition st_cmds s v := mkHst (t_mem s) (t_models s) (t_players s) (t_sensors s) (t_log s) (t_time s) (t_term s) (t_reports s) (t_first s) (t_obs s) (t_last s) v (t_logs s).
Definition st_logs s v := mkHst (t_mem s) (t_models s) (t_players s) (t_sensors s) (t_log s) (t_time s) (t_term s) (t_reports s) (t_first s) (t_obs s) (t_last s) (t_cmds s) v.

Context (cfg : hconfig).

(** _need_to_update_commands, simulator.py:267-269. *)
Definition h_need (s : hst) : bool :=
  match t_last s with None => true | Some l => qleb (dt_commands (hc_param cfg)) (t_time s - l) end.

(** SimModel.get_state, simulator_structures.py:205-206: [deepcopy(self._state)]. *)
Definition h_get_state (s : hst) (r : nat) : hst * nat :=
  let '(m, r') := new_x (t_mem s) (m_x (t_mem s) r) in (st_mem s m, r').

(** The loop of pre_update, simulator.py:116-119.  The state of the
    PlayerObservations is an object the agents will get. *)
Definition h_observe (acc : hst * list (player * (nat * F))) (p : player)
  : result (hst * list (player * (nat * F))) :=
  let '(s, obs) := acc in
  match dgetE (t_models s) p with Err e => Err e | Ok (r, b) =>
  let '(s1, r') := h_get_state s r in
  Ok (st_mem s1 (show_x (t_mem s1) r'), obs ++ [(p, (r', h_footprint H (m_x (t_mem s) r, b)))])
  end.
(** pre_update, simulator.py:108-126. *)
Definition h_pre_update (s : hst) : result hst :=
  if h_need s then
    match rfold h_observe (s, []) (akeys (t_players s)) with
    | Err e => Err e
    | Ok (s', obs) => Ok (st_obs s' (mkObs obs (t_time s)))
    end
  else Ok s.

(** Used for [h_ask], simulator.py:135-147. *)
Definition h_sensor (s : hst) (p : player) : result S_ :=
  match dget (t_sensors s) p with
  | Some f => Ok f
  | None => if hc_sensors_default cfg then Ok (h_idf H) else Err PyKeyError
  end.

(** [self.simlogger[p].<builder>.add(...)].
    Used for [h_ask], simulator.py:135-147; [h_update_player], simulator.py:132-152; [h_remove1], simulator.py:256-265. *)
Definition h_logger (s : hst) (p : player) (f : hlogger -> result hlogger) : result hst :=
  match dgetE (t_logs s) p with Err e => Err e | Ok l =>
  match f l with Err e => Err e | Ok l' => Ok (st_logs s (dset (t_logs s) p l')) end end.
Definition h_log_state (t : Qc) (r : nat) (l : hlogger) : result hlogger :=
  match b_add (k_states l) t r with Err e => Err e | Ok b =>
  Ok (mkK b (k_commands l) (k_extra l) (k_info l)) end.
Definition h_log_command (t : Qc) (r : nat) (l : hlogger) : result hlogger :=
  match b_add (k_commands l) t r with Err e => Err e | Ok b =>
  Ok (mkK (k_states l) b (k_extra l) (k_info l)) end.
Definition h_log_extra (t : Qc) (x : E) (l : hlogger) : result hlogger :=
  match b_add (k_extra l) t x with Err e => Err e | Ok b =>
  Ok (mkK (k_states l) (k_commands l) b (k_info l)) end.
Definition h_log_info (t : Qc) (x : I) (l : hlogger) : result hlogger :=
  match b_add (k_info l) t x with Err e => Err e | Ok b =>
  Ok (mkK (k_states l) (k_commands l) (k_extra l) b) end.

(** The body of [if self._need_to_update_commands], simulator.py:135-147.  The
    commands object is stored and logged as it is, without a copy (141-142). *)
Definition h_ask (s : hst) (p : player) (t : Qc) : result hst :=
  match h_sensor s p with Err e => Err e | Ok f =>
  match h_sense H f (hc_scen cfg) (t_obs s) (t_mem s) p with Err e => Err e | Ok (f', o) =>
  match dgetE (t_players s) p with Err e => Err e | Ok a =>
  match h_agent H a o (t_mem s) with Err e => Err e | Ok (a', is, c) =>
  match returned (exec (t_mem s) is) c with Err e => Err e | Ok (m1, r) =>
  let s1 := st_cmds (st_players (st_sensors (st_mem s m1) (dset (t_sensors s) p f'))
                                (dset (t_players s) p a')) (dset (t_cmds s) p r) in
  match h_logger s1 p (h_log_command t r) with Err e => Err e | Ok s2 =>
  match h_logger s2 p (h_log_info t (h_cpu H p t)) with Err e => Err e | Ok s3 =>
  match h_extra H a' (t_mem s3) with Err e => Err e | Ok (a'', is', x) =>
  let s4 := st_players (st_mem s3 (exec (t_mem s3) is')) (dset (t_players s3) p a'') in
  match x with None => Ok s4 | Some v => h_logger s4 p (h_log_extra t v) end
  end end end end end end end end.

(** One iteration of the loop of update, simulator.py:132-152: a copy of the
    state is logged, and model.update binds [_state] to a new object
    (models/vehicle.py:193-194 and the like). *)
Definition h_update_player (t : Qc) (s : hst) (p : player) : result hst :=
  match dgetE (t_models s) p with Err e => Err e | Ok (r0, _) =>
  let '(s0, rl) := h_get_state s r0 in
  match h_logger s0 p (h_log_state t rl) with Err e => Err e | Ok s1 =>
  match (if h_need s1 then h_ask s1 p t else Ok s1) with Err e => Err e | Ok s2 =>
  match dgetE (t_cmds s2) p with Err e => Err e | Ok ru =>
  match dgetE (t_models s2) p with Err e => Err e | Ok (r, b) =>
  match h_step H (m_x (t_mem s2) r, b) (m_u (t_mem s2) ru) (dt (hc_param cfg)) with Err e => Err e | Ok (x', b') =>
  let '(m', r') := new_x (t_mem s2) x' in
  Ok (st_models (st_mem s2 m') (dset (t_models s2) p (r', b')))
  end end end end end end.
(** update, simulator.py:128-155. *)
Definition h_update (s : hst) : result hst :=
  let t := t_time s in
  match rfold (h_update_player t) s (akeys (t_players s)) with
  | Err e => Err e
  | Ok s' => if h_need s' then Ok (st_last s' (Some t)) else Ok s'
  end.

(** _remove_finished_players, simulator.py:256-265. *)
Definition h_remove1 (s : hst) (pm : player * G) : result hst :=
  let '(p, g) := pm in
  if dmem (t_players s) p then
    match dgetE (t_models s) p with Err e => Err e | Ok (r, _) =>
    let '(s1, r') := h_get_state s r in
    match h_goal H g (m_x (t_mem s1) r') (t_time s) with Err e => Err e | Ok false => Ok s1 | Ok true =>
    match h_logger s1 p (h_log_state (t_time s1) r') with Err e => Err e | Ok s2 =>
    Ok (st_players s2 (ddel (t_players s2) p))
    end end end
  else Ok s.
Definition h_remove (s : hst) : result hst := rfold h_remove1 s (hc_missions cfg).

(** _maybe_terminate_simulation, simulator.py:174-195. *)
Definition h_termination (s : hst) : bool :=
  let cond := qltb (max_sim_time (hc_param cfg)) (t_time s)
              || past_collision (t_time s) (t_first s) (after_collision (hc_param cfg))
              || match t_players s with [] => true | _ => false end in
  if negb cond then
    match hc_missions cfg with
    | [] => false
    | ms => forallb (fun pn => negb (dmem (t_players s) pn)) (akeys ms)
    end
  else cond.

(** Collisions with the environment, simulator.py:197-225: [set_velocity] writes
    into the state object of the model. *)
Definition h_check_env1 (p : player) (s : hst) (idx : nat) : result hst :=
  match dgetE (t_models s) p with Err e => Err e | Ok (r, b) =>
  match item (h_obstacles H (hc_scen cfg)) idx with Err e => Err e | Ok ob =>
  let '((x', b'), out) := h_resolve_env H p ob (t_time s) (m_x (t_mem s) r, b) in
  let s1 := st_models (st_mem s (write_x (t_mem s) r x')) (dset (t_models s) p (r, b')) in
  match (match out with
         | Ok r => Ok r
         | Err CollisionException => Ok (Some (mkRep [p] (t_time s) None))
         | Err e => Err e
         end) with
  | Err e => Err e
  | Ok None => Ok s1
  | Ok (Some rp) =>
      if h_is_dyn H (x', b') then Ok s1
      else Ok (st_reports s1 (t_reports s1 ++ [rp]) (earlier (t_time s) (t_first s1)))
  end end end.
Definition h_check_env_player (s : hst) (p : player) : result hst :=
  match dgetE (t_models s) p with Err e => Err e | Ok (r, b) =>
  rfold (h_check_env1 p) s (h_query H (hc_scen cfg) (h_footprint H (m_x (t_mem s) r, b)))
  end.
Definition h_check_env (s : hst) : result hst := rfold h_check_env_player s (akeys (t_players s)).

(** Collisions among players, simulator.py:227-254. *)
Definition h_check_pair (s : hst) (pq : player * player) : result hst :=
  let '(p, q) := pq in
  match dgetE (t_models s) p with Err e => Err e | Ok (ra, ba) =>
  match dgetE (t_models s) q with Err e => Err e | Ok (rb, bb) =>
  let a := (m_x (t_mem s) ra, ba) in let b := (m_x (t_mem s) rb, bb) in
  if h_intersects H (h_footprint H a) (h_footprint H b) then
    let '(((xa, ba'), (xb, bb')), out) := h_resolve H (hc_scen cfg) p q (t_time s) a b in
    let s1 := st_models (st_mem s (write_x (write_x (t_mem s) ra xa) rb xb))
                        (dset (dset (t_models s) p (ra, ba')) q (rb, bb')) in
    match (match out with
           | Ok r => Ok r
           | Err CollisionException => Ok (Some (mkRep [p; q] (t_time s) None))
           | Err e => Err e
           end) with
    | Err e => Err e
    | Ok None => Ok s1
    | Ok (Some rp) => Ok (st_reports s1 (t_reports s1 ++ [rp]) (earlier (r_time rp) (t_first s1)))
    end
  else Ok s
  end end.
Definition h_check_players (s : hst) : result hst :=
  rfold h_check_pair s (combinations2 (akeys (t_players s))).

(** post_update, simulator.py:157-172. *)
Definition h_post_update (s : hst) : result hst :=
  let s1 := st_time s (t_time s + dt (hc_param cfg)) in
  match h_remove s1 with Err e => Err e | Ok s2 =>
  let s3 := st_term s2 (h_termination s2) in
  if t_term s3 then Ok s3
  else match h_check_env s3 with Err e => Err e | Ok s4 => h_check_players s4 end
  end.

(** One iteration of the loop of run, simulator.py:100-102. *)
Definition h_tick (s : hst) : result hst :=
  match h_pre_update s with Err e => Err e | Ok s1 =>
  match h_update s1 with Err e => Err e | Ok s2 => h_post_update s2 end end.

(** Episode initialisation, simulator.py:86-97. *)
Definition h_init_player (s : hst) (p : player) : result hst :=
  match dgetE (t_players s) p with Err e => Err e | Ok a =>
  match dgetE (t_models s) p with Err e => Err e | Ok (_, b) =>
  match h_init H a p (hc_seed cfg) (hc_scen cfg) (dget (hc_missions cfg) p) b with Err e => Err e | Ok a' =>
  Ok (st_logs (st_players s (dset (t_players s) p a')) (dset (t_logs s) p new_hlogger))
  end end end.
Definition h_init_run (s : hst) : result hst := rfold h_init_player s (akeys (t_players s)).

(** The while loop, simulator.py:99-102. *)
Fixpoint h_loop (fuel : nat) (s : hst) : option (result hst) :=
  if t_term s then Some (Ok s)
  else match fuel with
       | O => None
       | S f => match h_tick s with Err e => Some (Err e) | Ok s' => h_loop f s' end
       end.

(** Writing the logs, simulator.py:104-105. *)
Definition h_as_sequence (l : hlogger) : result hplog :=
  match as_sequence (k_states l) with Err e => Err e | Ok a =>
  match as_sequence (k_commands l) with Err e => Err e | Ok b =>
  match as_sequence (k_extra l) with Err e => Err e | Ok c =>
  match as_sequence (k_info l) with Err e => Err e | Ok d => Ok (mkHLog a b c d)
  end end end end.
Definition h_write_log (s : hst) (p : player) : result hst :=
  match dgetE (t_logs s) p with Err e => Err e | Ok l =>
  match h_as_sequence l with Err e => Err e | Ok q => Ok (st_log s (dset (t_log s) p q)) end end.
Definition h_write_logs (s : hst) : result hst := rfold h_write_log s (akeys (t_models s)).

(** Simulator.run, simulator.py:82-106. *)
Definition h_run (fuel : nat) (s : hst) : option (result hst) :=
  match h_init_run s with
  | Err e => Some (Err e)
  | Ok s0 => match h_loop fuel s0 with
             | None => None
             | Some (Err e) => Some (Err e)
             | Some (Ok s1) => Some (h_write_logs s1)
             end
  end.
End Heap.
Arguments hlogger H : clear implicits. Arguments hplog H : clear implicits.
Arguments hconfig H : clear implicits. Arguments hst H : clear implicits.
