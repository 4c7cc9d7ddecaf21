(** Vocabulary for the statements about the order in which players are listed. *)
From Coq Require Import QArith Qcanon ZArith List Bool Arith Permutation.
From Verif Require Import Base Num SeqModel SimulatorModel SimulatorSpec CauseSpec.
Import ListNotations.
Open Scope Qc_scope.

Section Spec.
Context {W : world}.

(** Two contexts that differ only in the order of the entries of their dicts. *)
Definition reordered (c c' : ctx W) : Prop :=
  Permutation (c_models c) (c_models c') /\ Permutation (c_players c) (c_players c') /\
  Permutation (c_sensors c) (c_sensors c') /\ Permutation (c_log c) (c_log c') /\
  Permutation (g_missions (c_cfg c)) (g_missions (c_cfg c')) /\
  g_scen (c_cfg c') = g_scen (c_cfg c) /\ g_param (c_cfg c') = g_param (c_cfg c) /\
  g_sensors_default (c_cfg c') = g_sensors_default (c_cfg c) /\ g_seed (c_cfg c') = g_seed (c_cfg c) /\
  c_time c' = c_time c /\ c_term c' = c_term c /\ c_reports c' = c_reports c /\ c_first c' = c_first c.

(** Two observations that differ only in the order of the players. *)
Definition same_obs (o o' : simobs (w_X W) (w_F W)) : Prop :=
  o_time o' = o_time o /\ Permutation (o_players o) (o_players o').

(** [R] relates sensor and agent pairs of player [p] such that the second pair,
    shown one of the observations [seen] in another order, answers like the
    first one shown the observation itself, and the pairs are related
    afterwards. *)
Definition blind_to_order (sc : w_scen W) (p : player) (seen : list (simobs (w_X W) (w_F W))) (R : w_S W * w_A W -> w_S W * w_A W -> Prop) : Prop :=
  forall f a h b o o' f' g a1 u a2 x, R (f, a) (h, b) -> In o seen -> same_obs o o' ->
    sense W f sc o p = Ok (f', g) -> agent_cmds W a g = Ok (a1, u) -> agent_extra W a1 = Ok (a2, x) ->
    exists h' g' b1 b2, sense W h sc o' p = Ok (h', g') /\ agent_cmds W b g' = Ok (b1, u) /\ agent_extra W b1 = Ok (b2, x) /\ R (f', a2) (h', b2).

(** In the run of context [c] that led to [s], nothing [p] does depends on the
    order in which its observations list the players. *)
Definition order_blind (c : ctx W) (s : st W) (p : player) : Prop :=
  exists R, blind_to_order (g_scen (c_cfg c)) p (map ask_seen (asks s p)) R /\
    forall f a, get_sensor c p = Ok f -> initialised c p a -> R (f, a) (f, a).

(** No collision between two players was resolved. *)
Definition no_contact (s : st W) : Prop := forall p q t out, ~ In (EPair p q t out) (ev s).

(** Whenever two players collide, neither of them is in another collision at the
    same time. *)
Definition one_at_a_time (s : st W) : Prop := forall p q p' q' t out out',
  In (EPair p q t out) (ev s) -> In (EPair p' q' t out') (ev s) -> p' = p \/ p' = q \/ q' = p \/ q' = q -> p' = p /\ q' = q.

(** [other r] relates a report to the one that names the two players in the
    other order.  Two outcomes of a collision that differ in this only; the
    models are left alike if the collision could not be resolved. *)
Definition same_outcome (other : report (w_D W) -> report (w_D W) -> Prop) (p q : player) (t : Qc) (out out' : result (option (report (w_D W)))) : Prop :=
  match out, out' with
  | Ok None, Ok None => True
  | Ok (Some r), Ok (Some r') => r_time r' = r_time r /\ other r r'
  | Err CollisionException, Err CollisionException => other (mkRep [p; q] t None) (mkRep [q; p] t None)
  | Err e, Err e' => e' = e
  | _, _ => False
  end.
(** Two players whose footprints are placed like [G] leave a collision with the
    same models whichever is named first. *)
Definition resolves_evenly (sc : w_scen W) (G : w_F W -> w_F W -> Prop) (other : report (w_D W) -> report (w_D W) -> Prop) : Prop :=
  forall p q t a b a' b' out, p <> q -> G (footprint W a) (footprint W b) -> resolve W sc p q t a b = ((a', b'), out) ->
    exists out', resolve W sc q p t b a = ((b', a'), out') /\ same_outcome other p q t out out'.
(** Collisions change velocities, not places. *)
Definition stays_in_place (sc : w_scen W) : Prop :=
  forall p q t a b a' b' out, resolve W sc p q t a b = ((a', b'), out) -> footprint W a' = footprint W a /\ footprint W b' = footprint W b.
(** When two players collided during the first [k] iterations, they were placed
    like [G]. *)
Definition collided_as (G : w_F W -> w_F W -> Prop) (s0 : st W) (k : nat) : Prop :=
  forall j x p q out a b, (j <= k)%nat -> after s0 j x -> In (EPair p q (time x) out) (ev x) -> model_of x p = Some a -> model_of x q = Some b -> G (footprint W a) (footprint W b).

(** The same reports, in any order and up to [other]. *)
Definition same_reports (other : report (w_D W) -> report (w_D W) -> Prop) (l l' : list (report (w_D W))) : Prop :=
  exists k, Forall2 (fun r r' => r' = r \/ other r r') l k /\ Permutation k l'.

(** The two states agree on the time, the active players, every player's model
    and log so far, the collisions reported and whether the run is over. *)
Definition same_state_up_to (other : report (w_D W) -> report (w_D W) -> Prop) (s z : st W) : Prop :=
  time z = time s /\ Permutation (akeys (c_players (cx s))) (akeys (c_players (cx z))) /\
  (forall q, In q (akeys (c_models (cx s))) -> model_of z q = model_of s q /\ logger_of z q = logger_of s q) /\
  same_reports other (c_reports (cx s)) (c_reports (cx z)) /\ c_first (cx z) = c_first (cx s) /\ c_term (cx z) = c_term (cx s).
Definition same_state (s z : st W) : Prop :=
  time z = time s /\ Permutation (akeys (c_players (cx s))) (akeys (c_players (cx z))) /\
  (forall q, In q (akeys (c_models (cx s))) -> model_of z q = model_of s q /\ logger_of z q = logger_of s q) /\
  Permutation (c_reports (cx s)) (c_reports (cx z)) /\ c_first (cx z) = c_first (cx s) /\ c_term (cx z) = c_term (cx s).

(** The same logs were written. *)
Definition same_logs_all (s z : st W) : Prop :=
  forall q, In q (akeys (c_models (cx s))) -> exists l k, dget (c_log (cx s)) q = Some l /\ dget (c_log (cx z)) q = Some k /\
    iter (pl_states k) = iter (pl_states l) /\ iter (pl_commands k) = iter (pl_commands l) /\ iter (pl_extra k) = iter (pl_extra l) /\ iter (pl_info k) = iter (pl_info l).

(** Sensors related by [S], shown an observation and a reordering of it with
    observer [p], let an observation and a reordering of it through. *)
Definition passes_order (sc : w_scen W) (p : player) (S : w_S W -> w_S W -> Prop) : Prop :=
  forall f h o o' f' g, S f h -> NoDup (akeys (o_players o)) -> same_obs o o' -> sense W f sc o p = Ok (f', g) ->
    exists h' g', sense W h sc o' p = Ok (h', g') /\ same_obs g g' /\ NoDup (akeys (o_players g)) /\ S f' h'.

(** The agents [A] answer the same whatever the order of the players in the
    observation, and stay among [A]. *)
Definition reads_unordered (A : w_A W -> Prop) : Prop :=
  (forall a g g' a1 u, A a -> NoDup (akeys (o_players g)) -> same_obs g g' -> agent_cmds W a g = Ok (a1, u) -> agent_cmds W a g' = Ok (a1, u) /\ A a1) /\
  (forall a a1 x, A a -> agent_extra W a = Ok (a1, x) -> A a1).
End Spec.
