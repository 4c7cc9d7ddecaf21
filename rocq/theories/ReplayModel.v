(** Replaying a simulation: the contexts in which every agent is an NPAgent
    made from the commands another run logged. *)
From Coq Require Import QArith Qcanon ZArith List Bool Arith.
From Verif Require Import Base Num SeqModel SimulatorModel AgentModel.
Import ListNotations.
Open Scope Qc_scope.

Section Replay.
Context (W : world).

(** The external code of a simulation with the models, goals, scenario and
    collision resolution of [W] in which every agent is an NPAgent
    (agent.py:39-52: on_episode_init does nothing, get_commands is
    [np_get_commands], on_get_extra is Agent's and returns None, 29-35) and every
    sensor is an IdObsFilter (sim_perception.py:33-37), as made by the default
    sensors dict (simulator.py:39).  [cpu] is the time measured by perf_counter,
    arbitrary. *)
Definition replay_world (cpu : player -> Qc -> w_I W) : world :=
  mkWorld (w_X W) (w_U W) (w_M W) (seq (w_U W)) (w_G W) unit (w_F W) (w_O W) (w_E W) (w_I W) (w_D W) (w_scen W)
    (get_state W) (footprint W) (intersects W) (is_dyn W) (model_step W)
    (fun plan _ _ _ _ _ => Ok plan)
    (fun plan o => match np_get_commands plan o with Ok u => Ok (plan, u) | Err e => Err e end)
    (fun plan => Ok (plan, None))
    (goal_done W)
    (fun f _ o _ => Ok (f, o))
    tt cpu (env_query W) (obstacles W) (resolve W) (resolve_env W).

(** [SimContext(dg_scenario=..., models=..., players={p: NPAgent(log[p].commands)
    for p in players}, missions=..., param=...)] for the initial context [c] and
    a log: the sensors are the default, the log is empty.
    SimContext, simulator.py:21-65; NPAgent, agent.py:38-52; SimLog, simulator_structures.py:126-146. *)
Definition replay_context cpu (c : ctx W) (log : list (player * plog W)) (seed : nat) : ctx (replay_world cpu) :=
  @mkCtx (replay_world cpu)
    (@mkConfig (replay_world cpu) (g_scen (c_cfg c)) (g_param (c_cfg c)) (g_missions (c_cfg c)) true seed)
    (c_models c)
    (map (fun p => (p, match dget log p with Some l => pl_commands l | None => mkSeq [] [] true end)) (akeys (c_players c)))
    [] [] (c_time c) (c_term c) (c_reports c) (c_first c).
End Replay.
