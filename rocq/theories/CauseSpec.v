(** Vocabulary for the statements about what drives the agents of a simulation. *)
From Coq Require Import QArith Qcanon ZArith List Bool Arith.
From Verif Require Import Base Num SeqModel SimulatorModel SimulatorSpec VehState CtrlModel AgentModel PerceptionModel PerceptionSpec.
Import ListNotations.
Open Scope Qc_scope.

Section Spec.
Context {W : world}.

(** [talks a0 os a us]: an agent object [a0] on its own, shown the observations
    [os] one after the other (each time asked for commands and then for
    extras), is [a] afterwards and answered [us]. *)
Inductive talks (a0 : w_A W) : list (simobs (w_X W) (w_F W)) -> w_A W -> list (w_U W * option (w_E W)) -> Prop :=
| talks_nil : talks a0 [] a0 []
| talks_ask os a us o a1 u a2 x : talks a0 os a us -> agent_cmds W a o = Ok (a1, u) -> agent_extra W a1 = Ok (a2, x) ->
    talks a0 (os ++ [o]) a2 (us ++ [(u, x)]).

(** [watches sc p f0 fs f os]: a sensor [f0] on its own, shown the full
    observations [fs] with observer [p] in scenario [sc], is [f] afterwards and
    let [os] through. *)
Inductive watches (sc : w_scen W) (p : player) (f0 : w_S W) : list (simobs (w_X W) (w_F W)) -> w_S W -> list (simobs (w_X W) (w_F W)) -> Prop :=
| watches_nil : watches sc p f0 [] f0 []
| watches_sense fs f os full f' o : watches sc p f0 fs f os -> sense W f sc full p = Ok (f', o) ->
    watches sc p f0 (fs ++ [full]) f' (os ++ [o]).

(** The extras among timed answers. *)
Definition extras (l : list (Qc * (w_U W * option (w_E W)))) : list (Qc * w_E W) :=
  flat_map (fun e => match snd (snd e) with None => [] | Some x => [(fst e, x)] end) l.

(** The agent of [p] as the loop finds it: the one of the context after its
    episode initialisation with the player's name, the seed, the scenario, the
    player's mission and its model. *)
Definition initialised (c : ctx W) (p : player) (a : w_A W) : Prop :=
  exists a0 m, dget (c_players c) p = Some a0 /\ dget (c_models c) p = Some m /\
    agent_init W a0 p (g_seed (c_cfg c)) (g_scen (c_cfg c)) (dget (g_missions (c_cfg c)) p) m = Ok a.
End Spec.

(** Some agents and sensors of a world are those of the package.  The other
    ones are arbitrary. *)
Section Kinds.
Context (W : world).

(** [emb plan] is an NPAgent with plan [plan]. *)
Definition open_loop (emb : seq (w_U W) -> w_A W) : Prop :=
  (forall plan q sd sc g m, agent_init W (emb plan) q sd sc g m = Ok (emb plan)) /\
  (forall plan o, agent_cmds W (emb plan) o = match np_get_commands plan o with Ok u => Ok (emb plan, u) | Err e => Err e end) /\
  (forall plan, agent_extra W (emb plan) = Ok (emb plan, None)).

(** [emb a] is a lane following agent [a] with the environment functions [env];
    commands and lights are stored as [cmd]. *)
Definition lane_following {PP G Lane} (env : lf_env (w_X W) PP G Lane) (emb : lf_agent (PP := PP) (Lane := Lane) -> w_A W) (cmd : vcmd * lights -> w_U W) : Prop :=
  (forall a q sd sc g m, agent_init W (emb a) q sd sc g m = Ok (emb (lf_init a q))) /\
  (forall a (o : simobs (w_X W) (w_F W)), agent_cmds W (emb a) o = match lf_get_commands env a o with Ok (b, u) => Ok (emb b, cmd u) | Err e => Err e end) /\
  (forall a b x, agent_extra W (emb a) = Ok (b, x) -> b = emb a).

(** [emb d] is a DelayedObsFilter with latency [L] around an IdObsFilter;
    [shapes] are the obstacles of the scenario. *)
Definition delay_sensor (shapes : w_scen W -> list (w_F W)) (L : Qc) (emb : delayed (X := w_X W) (F := w_F W) unit -> w_S W) : Prop :=
  forall d sc o q, sense W (emb d) sc o q = match delayed_sense id_sense L d (shapes sc) o q with Ok (d', r) => Ok (emb d', r) | Err e => Err e end.

(** [emb f] is a FovObsFilter. *)
Definition fov_sensor {P Z_} (shapes : w_scen W -> list (w_F W)) (g : geo (w_X W) (w_F W) P Z_) (emb : fov_filter (P := P) (Z_ := Z_) -> w_S W) : Prop :=
  forall f sc o q, sense W (emb f) sc o q = match fov_sense g f (shapes sc) o q with Ok (f', r) => Ok (emb f', r) | Err e => Err e end.
End Kinds.
