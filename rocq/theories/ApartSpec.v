(** Vocabulary for the statements about a player the others do not notice. *)
From Coq Require Import QArith Qcanon ZArith List Bool Arith.
From Verif Require Import Base Num SeqModel SimulatorModel SimulatorSpec CauseSpec.
Import ListNotations.
Open Scope Qc_scope.

(** A dict without the key [e]. *)
Definition without {V} (e : player) (d : list (player * V)) : list (player * V) := filter (fun kv => negb (Nat.eqb (fst kv) e)) d.

Section Spec.
Context {W : world}.

Definition obs_without (e : player) (o : simobs (w_X W) (w_F W)) : simobs (w_X W) (w_F W) := mkObs (without e (o_players o)) (o_time o).

(** The same simulation without the player [e]: no model, agent, sensor, mission
    or log for it; the rest is the same. *)
Definition ctx_without (e : player) (c : ctx W) : ctx W :=
  mkCtx (mkConfig (g_scen (c_cfg c)) (g_param (c_cfg c)) (without e (g_missions (c_cfg c))) (g_sensors_default (c_cfg c)) (g_seed (c_cfg c)))
        (without e (c_models c)) (without e (c_players c)) (without e (c_sensors c)) (without e (c_log c)) (c_time c) (c_term c) (c_reports c) (c_first c).

(** [R] relates sensor and agent pairs of player [p] such that the second pair,
    shown one of the observations [seen] without [e], answers like the first one
    shown the observation itself, and the pairs are related afterwards. *)
Definition cannot_tell (e : player) (sc : w_scen W) (p : player) (seen : list (simobs (w_X W) (w_F W))) (R : w_S W * w_A W -> w_S W * w_A W -> Prop) : Prop :=
  forall f a h b o f' g a1 u a2 x, R (f, a) (h, b) -> In o seen ->
    sense W f sc o p = Ok (f', g) -> agent_cmds W a g = Ok (a1, u) -> agent_extra W a1 = Ok (a2, x) ->
    exists h' g' b1 b2, sense W h sc (obs_without e o) p = Ok (h', g') /\ agent_cmds W b g' = Ok (b1, u) /\ agent_extra W b1 = Ok (b2, x) /\ R (f', a2) (h', b2).

(** In the run of context [c] that led to [s], nothing [p] does depends on [e]:
    its sensor and agent answer the observations made in that run as they would
    answer them without [e] in them. *)
Definition ignores (c : ctx W) (s : st W) (e p : player) : Prop :=
  exists R, cannot_tell e (g_scen (c_cfg c)) p (map ask_seen (asks s p)) R /\
    forall f a, get_sensor c p = Ok f -> initialised c p a -> R (f, a) (f, a).

(** No collision of [e] was resolved. *)
Definition untouched (e : player) (s : st W) : Prop :=
  (forall i t d out, ~ In (EEnv e i t d out) (ev s)) /\
  (forall p q t out, In (EPair p q t out) (ev s) -> p <> e /\ q <> e).

(** For the players other than [e] the two states have the same times, active
    players and logs so far. *)
Definition same_histories (e : player) (s z : st W) : Prop :=
  time z = time s /\ akeys (c_players (cx z)) = filter (fun q => negb (Nat.eqb q e)) (akeys (c_players (cx s))) /\
  (forall q, q <> e -> In q (akeys (c_models (cx s))) -> logger_of z q = logger_of s q).

(** And also the same models, and the same collisions were reported. *)
Definition same_others (e : player) (s z : st W) : Prop :=
  same_histories e s z /\ (forall q, q <> e -> model_of z q = model_of s q) /\
  c_reports (cx z) = c_reports (cx s) /\ c_first (cx z) = c_first (cx s).

(** The same logs were written for the players other than [e]. *)
Definition same_logs (e : player) (s z : st W) : Prop :=
  forall q, q <> e -> In q (akeys (c_models (cx s))) -> exists l k, dget (c_log (cx s)) q = Some l /\ dget (c_log (cx z)) q = Some k /\
    iter (pl_states k) = iter (pl_states l) /\ iter (pl_commands k) = iter (pl_commands l) /\ iter (pl_extra k) = iter (pl_extra l) /\ iter (pl_info k) = iter (pl_info l).
End Spec.
