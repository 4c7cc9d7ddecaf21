(** Corresponding worlds: what it means that two sets of agents, models,
    sensors, goals and scenarios correspond, under a renaming [rho] of the
    players and a shift [delta] of the clock. *)
From Coq Require Import QArith Qcanon ZArith List Bool Arith Lia.
From Verif Require Import Base Num SeqModel VehState CtrlModel AgentModel SimulatorModel SimulatorSpec.
Import ListNotations.
Open Scope Qc_scope.

(** Both calls give corresponding values, or both raise the same exception. *)
Definition both {A B} (R : A -> B -> Prop) (a : result A) (b : result B) : Prop :=
  match a, b with Ok x, Ok y => R x y | Err e, Err e' => e = e' | _, _ => False end.
Definition opt {A B} (R : A -> B -> Prop) (a : option A) (b : option B) : Prop :=
  match a, b with Some x, Some y => R x y | None, None => True | _, _ => False end.
Definition pairs_of {A B A' B'} (R : A -> A' -> Prop) (Q : B -> B' -> Prop) (x : A * B) (y : A' * B') : Prop := R (fst x) (fst y) /\ Q (snd x) (snd y).

(** What corresponds to what. *)
Record relations (W V : world) := mkRels {
  on_X : w_X W -> w_X V -> Prop; on_U : w_U W -> w_U V -> Prop; on_M : w_M W -> w_M V -> Prop; on_A : w_A W -> w_A V -> Prop;
  on_G : w_G W -> w_G V -> Prop; on_S : w_S W -> w_S V -> Prop; on_F : w_F W -> w_F V -> Prop; on_O : w_O W -> w_O V -> Prop;
  on_E : w_E W -> w_E V -> Prop; on_I : w_I W -> w_I V -> Prop; on_D : w_D W -> w_D V -> Prop; on_scen : w_scen W -> w_scen V -> Prop }.
Arguments on_X {W V}. Arguments on_U {W V}. Arguments on_M {W V}. Arguments on_A {W V}. Arguments on_G {W V}. Arguments on_S {W V}.
Arguments on_F {W V}. Arguments on_O {W V}. Arguments on_E {W V}. Arguments on_I {W V}. Arguments on_D {W V}. Arguments on_scen {W V}.

Section Spec.
Context {W V : world} (r : relations W V) (rho : player -> player) (delta : Qc).

(** Dicts with renamed keys and corresponding values, in the same order. *)
Definition dicts {A B} (R : A -> B -> Prop) : list (player * A) -> list (player * B) -> Prop := Forall2 (pairs_of (fun p q => q = rho p) R).
Definition times (t u : Qc) : Prop := u = t + delta.
Definition obs_match (o : simobs (w_X W) (w_F W)) (o' : simobs (w_X V) (w_F V)) : Prop :=
  dicts (pairs_of (on_X r) (on_F r)) (o_players o) (o_players o') /\ times (o_time o) (o_time o').
Definition report_match (a : report (w_D W)) (b : report (w_D V)) : Prop :=
  r_players b = map rho (r_players a) /\ times (r_time a) (r_time b) /\ opt (on_D r) (r_data a) (r_data b).

(** Every function of the one world, called with corresponding arguments,
    answers as the function of the other. *)
Record corresponding : Prop := mkCorr {
  wc_get_state : forall m n, on_M r m n -> on_X r (get_state W m) (get_state V n);
  wc_footprint : forall m n, on_M r m n -> on_F r (footprint W m) (footprint V n);
  wc_intersects : forall a a' b b', on_F r a a' -> on_F r b b' -> intersects V a' b' = intersects W a b;
  wc_is_dyn : forall m n, on_M r m n -> is_dyn V n = is_dyn W m;
  wc_step : forall m n u v d, on_M r m n -> on_U r u v -> both (on_M r) (model_step W m u d) (model_step V n v d);
  wc_init : forall a b p sd sc sc' g g' m n, on_A r a b -> on_scen r sc sc' -> opt (on_G r) g g' -> on_M r m n ->
    both (on_A r) (agent_init W a p sd sc g m) (agent_init V b (rho p) sd sc' g' n);
  wc_cmds : forall a b o o', on_A r a b -> obs_match o o' -> both (pairs_of (on_A r) (on_U r)) (agent_cmds W a o) (agent_cmds V b o');
  wc_extra : forall a b, on_A r a b -> both (pairs_of (on_A r) (opt (on_E r))) (agent_extra W a) (agent_extra V b);
  wc_done : forall g g' x y t, on_G r g g' -> on_X r x y -> goal_done V g' y (t + delta) = goal_done W g x t;
  wc_sense : forall f f' sc sc' o o' p, on_S r f f' -> on_scen r sc sc' -> obs_match o o' ->
    both (pairs_of (on_S r) obs_match) (sense W f sc o p) (sense V f' sc' o' (rho p));
  wc_id : on_S r (id_filter W) (id_filter V);
  wc_cpu : forall p t, on_I r (cpu_time W p t) (cpu_time V (rho p) (t + delta));
  wc_query : forall sc sc' f f', on_scen r sc sc' -> on_F r f f' -> env_query V sc' f' = env_query W sc f;
  wc_obstacles : forall sc sc', on_scen r sc sc' -> Forall2 (on_O r) (obstacles W sc) (obstacles V sc');
  wc_resolve : forall sc sc' p q t a a' b b', on_scen r sc sc' -> on_M r a a' -> on_M r b b' ->
    pairs_of (pairs_of (on_M r) (on_M r)) (both (opt report_match)) (resolve W sc p q t a b) (resolve V sc' (rho p) (rho q) (t + delta) a' b');
  wc_resolve_env : forall p ob ob' t m n, on_O r ob ob' -> on_M r m n ->
    pairs_of (on_M r) (both (opt report_match)) (resolve_env W p ob t m) (resolve_env V (rho p) ob' (t + delta) n) }.

(** Logs: the same samples at shifted times. *)
Definition seqs {A B} (R : A -> B -> Prop) (a : seq A) (b : seq B) : Prop := Forall2 times (tss a) (tss b) /\ Forall2 R (vals a) (vals b) /\ typed b = typed a.
Definition logs_match (a : plog W) (b : plog V) : Prop :=
  seqs (on_X r) (pl_states a) (pl_states b) /\ seqs (on_U r) (pl_commands a) (pl_commands b) /\ seqs (on_E r) (pl_extra a) (pl_extra b) /\ seqs (on_I r) (pl_info a) (pl_info b).

(** Contexts: the time limit is a time on the clock, so it is shifted too. *)
Definition ctx_match (c : ctx W) (d : ctx V) : Prop :=
  on_scen r (g_scen (c_cfg c)) (g_scen (c_cfg d)) /\
  dt (g_param (c_cfg d)) = dt (g_param (c_cfg c)) /\ dt_commands (g_param (c_cfg d)) = dt_commands (g_param (c_cfg c)) /\
  times (max_sim_time (g_param (c_cfg c))) (max_sim_time (g_param (c_cfg d))) /\ after_collision (g_param (c_cfg d)) = after_collision (g_param (c_cfg c)) /\
  dicts (on_G r) (g_missions (c_cfg c)) (g_missions (c_cfg d)) /\ g_sensors_default (c_cfg d) = g_sensors_default (c_cfg c) /\ g_seed (c_cfg d) = g_seed (c_cfg c) /\
  dicts (on_M r) (c_models c) (c_models d) /\ dicts (on_A r) (c_players c) (c_players d) /\ dicts (on_S r) (c_sensors c) (c_sensors d) /\
  dicts logs_match (c_log c) (c_log d) /\ times (c_time c) (c_time d) /\ c_term d = c_term c /\
  Forall2 report_match (c_reports c) (c_reports d) /\ opt times (c_first c) (c_first d).
End Spec.

(** The two special cases.  Everything is the same, but the players have other
    names; and everything is the same, but the clock shows another time and
    the agents are related by [A]. *)
Definition same (W : world) : relations W W := mkRels W W eq eq eq eq eq eq eq eq eq eq eq eq.
Definition same_but (W : world) (A : w_A W -> w_A W -> Prop) : relations W W := mkRels W W eq eq eq A eq eq eq eq eq eq eq eq.

(** The same dict, observation, report, sequence, context with other names and
    at other times. *)
Section Functions.
Context (W : world) (rho : player -> player) (delta : Qc).
Definition ren {V} (d : list (player * V)) : list (player * V) := map (fun e => (rho (fst e), snd e)) d.
Definition ren_obs {X F} (o : simobs X F) : simobs X F := mkObs (ren (o_players o)) (o_time o + delta).
Definition ren_report {D} (x : report D) : report D := mkRep (map rho (r_players x)) (r_time x + delta) (r_data x).
Definition moved_seq {X} (s : seq X) : seq X := mkSeq (map (fun t => t + delta) (tss s)) (vals s) (typed s).
Definition moved_log (l : plog W) : plog W := mkLog (moved_seq (pl_states l)) (moved_seq (pl_commands l)) (moved_seq (pl_extra l)) (moved_seq (pl_info l)).
Definition moved_param (p : sim_param) : sim_param := mkParam (dt p) (dt_commands p) (max_sim_time p + delta) (after_collision p).
Definition ren_ctx (agents : list (player * w_A W)) (c : ctx W) : ctx W :=
  mkCtx (mkConfig (g_scen (c_cfg c)) (moved_param (g_param (c_cfg c))) (ren (g_missions (c_cfg c))) (g_sensors_default (c_cfg c)) (g_seed (c_cfg c)))
    (ren (c_models c)) agents (ren (c_sensors c)) (ren (map (fun e => (fst e, moved_log (snd e))) (c_log c))) (c_time c + delta) (c_term c) (map ren_report (c_reports c)) (option_map (fun t => t + delta) (c_first c)).
End Functions.
Arguments ren rho {V}. Arguments ren_obs rho delta {X F}. Arguments ren_report rho delta {D}. Arguments moved_seq delta {X}. Arguments moved_log {W} delta. Arguments ren_ctx {W} rho delta.

(** Names mean nothing to this world: the functions answer the same, in the
    new names, when the players are renamed. *)
Record nameless (W : world) (rho : player -> player) : Prop := mkNameless {
  nl_init : forall a p sd sc g m, agent_init W a (rho p) sd sc g m = agent_init W a p sd sc g m;
  nl_cmds : forall a o, agent_cmds W a (ren_obs rho 0 o) = agent_cmds W a o;
  nl_sense : forall f sc o p, sense W f sc (ren_obs rho 0 o) (rho p) = match sense W f sc o p with Ok (f', g) => Ok (f', ren_obs rho 0 g) | Err e => Err e end;
  nl_cpu : forall p t, cpu_time W (rho p) t = cpu_time W p t;
  nl_resolve : forall sc p q t a b, resolve W sc (rho p) (rho q) t a b = (fst (resolve W sc p q t a b), match snd (resolve W sc p q t a b) with Ok x => Ok (option_map (ren_report rho 0) x) | Err e => Err e end);
  nl_resolve_env : forall p ob t m, resolve_env W (rho p) ob t m = (fst (resolve_env W p ob t m), match snd (resolve_env W p ob t m) with Ok x => Ok (option_map (ren_report rho 0) x) | Err e => Err e end) }.

(** Nothing but the agents reads the clock. *)
Record timeless (W : world) (delta : Qc) : Prop := mkTimeless {
  tl_done : forall g x t, goal_done W g x (t + delta) = goal_done W g x t;
  tl_sense : forall f sc o p, sense W f sc (ren_obs (fun q => q) delta o) p = match sense W f sc o p with Ok (f', g) => Ok (f', ren_obs (fun q => q) delta g) | Err e => Err e end;
  tl_cpu : forall p t, cpu_time W p (t + delta) = cpu_time W p t;
  tl_resolve : forall sc p q t a b, resolve W sc p q (t + delta) a b = (fst (resolve W sc p q t a b), match snd (resolve W sc p q t a b) with Ok x => Ok (option_map (ren_report (fun q => q) delta) x) | Err e => Err e end);
  tl_resolve_env : forall p ob t m, resolve_env W p ob (t + delta) m = (fst (resolve_env W p ob t m), match snd (resolve_env W p ob t m) with Ok x => Ok (option_map (ren_report (fun q => q) delta) x) | Err e => Err e end) }.

(** Sensors that answer alike: the sensor objects are translated by [h]. *)
Definition equivariant {X F S : Type} (rho : player -> player) (delta : Qc) (h : S -> S) (inner inner' : S -> list F -> simobs X F -> player -> result (S * simobs X F)) : Prop :=
  forall st sc o p, inner' (h st) sc (ren_obs rho delta o) (rho p) = match inner st sc o p with Ok (s', g) => Ok (h s', ren_obs rho delta g) | Err e => Err e end.

(** The same lane following agent, told another name. *)
Definition told {PP Lane} (rho : player -> player) (a : lf_agent (PP := PP) (Lane := Lane)) : lf_agent (PP := PP) (Lane := Lane) :=
  mkLFA (a_lane a) (a_speed a) (a_sb a) (a_steer a) (a_pp a) (a_path a) (a_pp_speed a) (option_map rho (a_name a)) (a_emergency a) (a_lights a).
