(** Vocabulary of the theorems on objects and references. *)
From Coq Require Import QArith Qcanon List Bool Arith.
From Verif Require Import Base Num SeqModel SimulatorModel HeapModel.
Import ListNotations.
Open Scope nat_scope.

(** A program about to call [Simulator().run(context)]: one model and one agent
    per player, models whose state objects exist and are not in the hands of an
    agent (the same object may be the state of several models), and a simulator
    that has not run yet. *)
Definition about_to_run {H} (s : hst H) : Prop :=
  NoDup (akeys (t_models s)) /\ NoDup (akeys (t_players s)) /\
  (forall p, In p (akeys (t_models s)) <-> In p (akeys (t_players s))) /\
  (forall p r b, dget (t_models s) p = Some (r, b) -> r < m_nx (t_mem s) /\ ~ In r (m_seen (t_mem s))) /\
  (forall r, In r (m_seen (t_mem s)) -> r < m_nx (t_mem s)) /\
  t_logs s = [] /\ t_log s = [] /\ t_cmds s = [] /\ o_players (t_obs s) = [].

(** The states of the program between two iterations of the while loop. *)
Inductive reached {H} (cfg : hconfig H) (s0 : hst H) : hst H -> Prop :=
| reached_init s : h_init_run cfg s0 = Ok s -> reached cfg s0 s
| reached_tick s s' : reached cfg s0 s -> t_term s = false -> h_tick cfg s = Ok s' -> reached cfg s0 s'.
Inductive later {H} (cfg : hconfig H) (s : hst H) : hst H -> Prop :=
| later_same : later cfg s s
| later_tick s1 s2 : later cfg s s1 -> t_term s1 = false -> h_tick cfg s1 = Ok s2 -> later cfg s s2.

(** Content of the state of player [p]. *)
Definition state_of {H} (s : hst H) (p : player) : option (h_X H) :=
  option_map (fun rb => m_x (t_mem s) (fst rb)) (dget (t_models s) p).

(** The log of states of player [p] while the simulation runs: times and objects. *)
Definition logged {H} (s : hst H) (p : player) (t : Qc) (r : nat) : Prop :=
  exists l, dget (t_logs s) p = Some l /\ In (t, r) (combine (b_ts (k_states l)) (b_vs (k_states l))).

(** What a reader of [context.log[p].states] finds after the run. *)
Definition read_states {H} (s : hst H) (l : hplog H) : list (Qc * h_X H) :=
  combine (tss (p_states l)) (map (m_x (t_mem s)) (vals (p_states l))).
Definition read_commands {H} (s : hst H) (l : hplog H) : list (Qc * h_U H) :=
  combine (tss (p_commands l)) (map (m_u (t_mem s)) (vals (p_commands l))).

(** ** Well-mannered agents and sensors *)

(** The values of a dict, one by one. *)
Definition dmap {V V'} (f : V -> V') (d : list (player * V)) : list (player * V') :=
  map (fun kv => (fst kv, f (snd kv))) d.

(** What the references of an observation read. *)
Definition read_obs {X U F} (m : memory X U) (o : simobs nat F) : simobs X F :=
  mkObs (dmap (fun rf => (m_x m (fst rf), snd rf)) (o_players o)) (o_time o).

(** [m] has the objects of [m0] with their content (objects an agent may hold
    from before the run). *)
Definition keeps_old {X U} (m0 m : memory X U) : Prop :=
  m_nx m0 <= m_nx m /\ m_nu m0 <= m_nu m /\
  (forall r, r < m_nx m0 -> m_x m r = m_x m0 r) /\ (forall r, r < m_nu m0 -> m_u m r = m_u m0 r).

Definition is_new {X U} (i : instr X U) : Prop := match i with INew _ => True | _ => False end.

(** The value-level description ([agent_cmds], [agent_extra], [sense] of
    SimulatorModel) is right for agents and sensors that write to no object:
    commands are new objects or objects made before the run. *)
Section Manners.
Context (H : hworld).
Notation X := (h_X H). Notation U := (h_U H).
Context (cmds : h_A H -> simobs X (h_F H) -> result (h_A H * U))
        (extra : h_A H -> result (h_A H * option (h_E H)))
        (sense_ : h_S H -> h_scen H -> simobs X (h_F H) -> player -> result (h_S H * simobs X (h_F H))).

Definition well_mannered (m0 : memory X U) : Prop :=
  (forall a o m, keeps_old m0 m ->
     match h_agent H a o m, cmds a (read_obs m o) with
     | Err e, Err e' => e = e'
     | Ok (a1, is, RNew u'), Ok (a2, u) => a1 = a2 /\ Forall is_new is /\ u' = u
     | Ok (a1, is, ROld r), Ok (a2, u) => a1 = a2 /\ Forall is_new is /\ r < m_nu m0 /\ m_u m0 r = u
     | _, _ => False
     end) /\
  (forall a m, keeps_old m0 m ->
     match h_extra H a m, extra a with
     | Err e, Err e' => e = e'
     | Ok (a1, is, x1), Ok (a2, x2) => a1 = a2 /\ Forall is_new is /\ x1 = x2
     | _, _ => False
     end) /\
  (forall f sc o m p, keeps_old m0 m ->
     match h_sense H f sc o m p, sense_ f sc (read_obs m o) p with
     | Err e, Err e' => e = e'
     | Ok (f1, o1), Ok (f2, o2) => f1 = f2 /\ read_obs m o1 = o2
     | _, _ => False
     end).

(** The same external code, as SimulatorModel sees it. *)
Definition values : world :=
  mkWorld X U (X * h_B H) (h_A H) (h_G H) (h_S H) (h_F H) (h_O H) (h_E H) (h_I H) (h_D H) (h_scen H)
    fst (h_footprint H) (h_intersects H) (h_is_dyn H) (h_step H)
    (fun a p seed sc g m => h_init H a p seed sc g (snd m))
    cmds extra (h_goal H) sense_ (h_idf H) (h_cpu H) (h_query H) (h_obstacles H)
    (h_resolve H) (h_resolve_env H).

(** What the references of the program read: a state of SimulatorModel. *)
Definition read_models (s : hst H) : list (player * (X * h_B H)) :=
  dmap (fun rb => (m_x (t_mem s) (fst rb), snd rb)) (t_models s).
Definition read_builder {V} (f : nat -> V) (b : builder nat) : builder V := mkB (b_ts b) (map f (b_vs b)).
Definition read_seq {V} (f : nat -> V) (q : seq nat) : seq V := mkSeq (tss q) (map f (vals q)) (typed q).
Definition read_plog (m : memory X U) (l : hplog H) : plog values :=
  @mkLog values (read_seq (m_x m) (p_states l)) (read_seq (m_u m) (p_commands l)) (p_extra l) (p_info l).
Definition read_logger (m : memory X U) (l : hlogger H) : plogger values :=
  @mkLogger values (read_builder (m_x m) (k_states l)) (read_builder (m_u m) (k_commands l)) (k_extra l) (k_info l).
Definition read_cfg (cfg : hconfig H) : config values :=
  @mkConfig values (hc_scen cfg) (hc_param cfg) (hc_missions cfg) (hc_sensors_default cfg) (hc_seed cfg).
Definition read_ctx (cfg : hconfig H) (s : hst H) : ctx values :=
  @mkCtx values (read_cfg cfg) (read_models s) (t_players s) (t_sensors s)
    (dmap (read_plog (t_mem s)) (t_log s))
    (t_time s) (t_term s) (t_reports s) (t_first s).
Definition read_sim (s : hst H) : simulator values :=
  @mkSim values (read_obs (t_mem s) (t_obs s)) (t_last s)
    (dmap (m_u (t_mem s)) (t_cmds s))
    (dmap (read_logger (t_mem s)) (t_logs s)).
End Manners.
