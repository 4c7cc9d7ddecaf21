(** Vocabulary for the statements about the simulator. *)
From Coq Require Import QArith Qcanon ZArith List Bool Arith Lia.
From Verif Require Import Base Num SeqModel SimulatorModel.
Import ListNotations.
Open Scope Qc_scope.

Section Spec.
Context {W : world}.

(** [p] is an active player. *)
Definition active (s : st W) (p : player) : Prop := In p (akeys (c_players (cx s))).
Definition activeb (s : st W) (p : player) : bool := dmem (c_players (cx s)) p.
Definition model_of (s : st W) (p : player) : option (w_M W) := dget (c_models (cx s)) p.
Definition state_of (s : st W) (p : player) : option (w_X W) := option_map (get_state W) (model_of s p).
Definition logger_of (s : st W) (p : player) : option (plogger W) := dget (s_logs (sm s)) p.

(** The samples a builder holds. *)
Definition samples {X} (b : builder X) : list (Qc * X) := combine (b_ts b) (b_vs b).
Definition states_log (s : st W) p := match logger_of s p with Some l => samples (lg_states l) | None => [] end.
Definition commands_log (s : st W) p := match logger_of s p with Some l => samples (lg_commands l) | None => [] end.
Definition extra_log (s : st W) p := match logger_of s p with Some l => samples (lg_extra l) | None => [] end.
Definition info_log (s : st W) p := match logger_of s p with Some l => samples (lg_info l) | None => [] end.

(** The calls made so far, oldest first: the agent of [p] was asked (time, full
    observation, filtered observation, returned command); the model of [p] was
    stepped (time, command, model before, model after). *)
Definition asks_of (p : player) (l : list (event W)) :=
  flat_map (fun e => match e with EAsk q t full o u => if Nat.eqb q p then [(t, full, o, u)] else [] | _ => [] end) (rev l).
Definition moves_of (p : player) (l : list (event W)) :=
  flat_map (fun e => match e with EMove q t u m m' => if Nat.eqb q p then [(t, u, m, m')] else [] | _ => [] end) (rev l).
Definition asks (s : st W) (p : player) := asks_of p (ev s).
Definition moves (s : st W) (p : player) := moves_of p (ev s).

(** Fields of those calls. *)
Definition ask_t (a : Qc * simobs (w_X W) (w_F W) * simobs (w_X W) (w_F W) * w_U W) : Qc := fst (fst (fst a)).
Definition ask_seen (a : Qc * simobs (w_X W) (w_F W) * simobs (w_X W) (w_F W) * w_U W) := snd (fst (fst a)).
Definition ask_given (a : Qc * simobs (w_X W) (w_F W) * simobs (w_X W) (w_F W) * w_U W) := snd (fst a).
Definition ask_cmd (a : Qc * simobs (w_X W) (w_F W) * simobs (w_X W) (w_F W) * w_U W) : w_U W := snd a.
Definition move_t (a : Qc * w_U W * w_M W * w_M W) : Qc := fst (fst (fst a)).

(** The collision calls made so far, oldest first. *)
Definition pairs_of (l : list (event W)) : list (player * player * Qc) :=
  flat_map (fun e => match e with EPair p q t _ => [(p, q, t)] | _ => [] end) (rev l).
Definition envs_of (l : list (event W)) : list (player * nat * Qc) :=
  flat_map (fun e => match e with EEnv p i t _ _ => [(p, i, t)] | _ => [] end) (rev l).
Definition leaves_of (l : list (event W)) : list (player * Qc) :=
  flat_map (fun e => match e with ELeave p t => [(p, t)] | _ => [] end) (rev l).

(** The report each collision call must leave in the context: the one returned,
    or an empty one naming the players if resolution failed; none if the bodies
    are separating or the player is a moving obstacle hitting the environment. *)
Definition expected_reports (l : list (event W)) : list (report (w_D W)) :=
  flat_map (fun e => match e with
    | EPair p q t (Ok (Some r)) => [r]
    | EPair p q t (Err _) => [mkRep [p; q] t None]
    | EEnv p i t false (Ok (Some r)) => [r]
    | EEnv p i t false (Err _) => [mkRep [p] t None]
    | _ => [] end) (rev l).

(** [s] is the state after [k] completed iterations of the loop started in [s0]. *)
Inductive after (s0 : st W) : nat -> st W -> Prop :=
| after_0 : after s0 0 s0
| after_S k s s' : after s0 k s -> c_term (cx s) = false -> step s = Ok s' -> after s0 (S k) s'.

(** A context accepted by the SimContext constructor, with Python dicts. *)
Definition valid_ctx (c : ctx W) : Prop :=
  ctx_post_init c = Ok tt /\ NoDup (akeys (c_models c)) /\ NoDup (akeys (c_players c)) /\
  NoDup (akeys (g_missions (c_cfg c))).

(** A Simulator object that never ran: the instance attribute is unset.  The
    class-level dicts may hold leftovers of other simulators. *)
Definition unused (m : simulator W) : Prop := s_last m = None.

(** The state in which the loop of a fresh run starts. *)
Definition started (c : ctx W) (s0 : st W) : Prop :=
  valid_ctx c /\ exists m, unused m /\ init_run c m = Ok s0.

(** What everybody's state and footprint are in [s]. *)
Definition snapshot (s : st W) (o : simobs (w_X W) (w_F W)) : Prop :=
  o_time o = time s /\
  akeys (o_players o) = akeys (c_players (cx s)) /\
  forall p, dget (o_players o) p =
    if activeb s p then option_map (fun m => (get_state W m, footprint W m)) (model_of s p) else None.

(** Sensors are available for every player; the spatial index returns indices
    of existing obstacles. *)
Definition sensors_ok (c : ctx W) : Prop :=
  g_sensors_default (c_cfg c) = true \/ forall p, In p (akeys (c_players c)) -> In p (akeys (c_sensors c)).
Definition query_ok (sc : w_scen W) : Prop :=
  forall f i, In i (env_query W sc f) -> (i < length (obstacles W sc))%nat.

(** Exceptions raised by external code. *)
Inductive user_raises (e : exn) : Prop :=
| ur_init a p sd sc g m : agent_init W a p sd sc g m = Err e -> user_raises e
| ur_cmds a o : agent_cmds W a o = Err e -> user_raises e
| ur_extra a : agent_extra W a = Err e -> user_raises e
| ur_step m u d : model_step W m u d = Err e -> user_raises e
| ur_goal g x t : goal_done W g x t = Err e -> user_raises e
| ur_sense f sc o p : sense W f sc o p = Err e -> user_raises e
| ur_resolve sc p q t a b : snd (resolve W sc p q t a b) = Err e -> e <> CollisionException -> user_raises e
| ur_resolve_env p ob t m : snd (resolve_env W p ob t m) = Err e -> e <> CollisionException -> user_raises e.

(** Collision resolution stamps its reports with the time it is given and does
    not move the bodies (it only sets velocities). *)
Definition reports_stamped : Prop :=
  (forall sc p q t a b r, snd (resolve W sc p q t a b) = Ok (Some r) -> r_time r = t) /\
  (forall p ob t m r, snd (resolve_env W p ob t m) = Ok (Some r) -> r_time r = t).
Definition resolution_keeps_footprint : Prop :=
  (forall sc p q t a b a' b', fst (resolve W sc p q t a b) = (a', b') ->
     footprint W a' = footprint W a /\ footprint W b' = footprint W b) /\
  (forall p ob t m, footprint W (fst (resolve_env W p ob t m)) = footprint W m).

(** A command request is due for [p]: none yet, or the last one is at least
    [dt_commands] ago. *)
Definition due (s : st W) (p : player) : Prop :=
  asks s p = [] \/
  exists pre a, asks s p = pre ++ [a] /\ dt_commands (param s) <= time s - ask_t a.

(** The documented reasons to stop. *)
Inductive stop_reason (c : ctx W) : Prop :=
| stop_time : max_sim_time (g_param (c_cfg c)) < c_time c -> stop_reason c
| stop_collision f : c_first c = Some f -> f + after_collision (g_param (c_cfg c)) < c_time c -> stop_reason c
| stop_empty : c_players c = [] -> stop_reason c
| stop_missions : g_missions (c_cfg c) <> [] ->
    (forall p, In p (akeys (g_missions (c_cfg c))) -> ~ In p (akeys (c_players c))) -> stop_reason c.
End Spec.
Arguments user_raises W e : clear implicits.
Arguments reports_stamped W : clear implicits.
Arguments resolution_keeps_footprint W : clear implicits.
Global Arguments asks_of : simpl never.
Global Arguments moves_of : simpl never.
Global Arguments pairs_of : simpl never.
Global Arguments envs_of : simpl never.
Global Arguments leaves_of : simpl never.
Global Arguments expected_reports : simpl never.

Section Spec2.
Context {W : world}.
(** The footprints of [p] and [q] intersect in [s]. *)
Definition touches (s : st W) (p q : player) : bool :=
  match model_of s p, model_of s q with
  | Some a, Some b => intersects W (footprint W a) (footprint W b)
  | _, _ => false
  end.
(** The obstacles the spatial index reports for [p] in [s]. *)
Definition env_candidates (s : st W) (p : player) : list nat :=
  match model_of s p with Some m => env_query W (g_scen (c_cfg (cx s))) (footprint W m) | None => [] end.
End Spec2.
