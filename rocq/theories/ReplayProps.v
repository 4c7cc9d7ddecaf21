(* Generated from tools/Replay.src by tools/gen_props.py. *)
(** Replaying a simulation from its log. *)
From Coq Require Import QArith Qcanon ZArith List Bool Arith Lia.
From Verif Require Import Base Num SeqModel SimulatorModel SimulatorSpec DictLemmas SimulatorWorld SimulatorProofs5 SimulatorProofs6 SimulatorProofs7 ReplayModel ReplaySpec ReplayProofs.
Import ListNotations.
Open Scope Qc_scope.
From Verif Require Import ReplayMain.

(** ** C131  Replays *)

(** A finished simulation can be replayed: with NPAgents made from the logged commands and the default sensors, whatever the first agents and sensors were, the same models, missions, scenario and parameters go through the same states and collisions, and the same commands are logged. *)
Theorem C131_replay : forall W (c : ctx W) m fuel sf, valid_ctx c -> unused m -> 0 < dt (g_param (c_cfg c)) ->
  run fuel m c = Some (Ok sf) ->
  forall cpu (m' : simulator (replay_world W cpu)) seed, unused m' ->
  exists sr, run fuel m' (replay_context W cpu c (c_log (cx sf)) seed) = Some (Ok sr) /\ same_happened sf sr.
Proof. exact C131_replay_pf. Qed.
Print Assumptions C131_replay.

(** Agents and sensors matter only through the commands: two simulations of the same models, missions, scenario and parameters, with any agents and sensors, in which the same commands were logged at the same times went the same way. *)
Theorem C131_commands_decide : forall W (c d : ctx W) m n fuel fuel' sf sg, valid_ctx c -> valid_ctx d -> unused m -> unused n -> 0 < dt (g_param (c_cfg c)) ->
  run fuel m c = Some (Ok sf) -> run fuel' n d = Some (Ok sg) ->
  g_scen (c_cfg d) = g_scen (c_cfg c) -> g_param (c_cfg d) = g_param (c_cfg c) -> g_missions (c_cfg d) = g_missions (c_cfg c) ->
  c_models d = c_models c -> akeys (c_players d) = akeys (c_players c) -> c_time d = c_time c -> c_term d = c_term c -> c_reports d = c_reports c -> c_first d = c_first c ->
  (forall p l k, dget (c_log (cx sf)) p = Some l -> dget (c_log (cx sg)) p = Some k -> pl_commands k = pl_commands l) ->
  time sg = time sf /\ c_models (cx sg) = c_models (cx sf) /\ akeys (c_players (cx sg)) = akeys (c_players (cx sf)) /\
  c_reports (cx sg) = c_reports (cx sf) /\ c_first (cx sg) = c_first (cx sf) /\
  forall p l k, In p (akeys (c_models (cx sf))) -> dget (c_log (cx sf)) p = Some l -> dget (c_log (cx sg)) p = Some k -> iter (pl_states k) = iter (pl_states l).
Proof. exact C131_commands_decide_pf. Qed.
Print Assumptions C131_commands_decide.

(** Not vacuous: a run of three players, one of which reaches its goal, in which a collision was reported, and its replay. *)
Example C131_ex : exists sf sr, run 7 new_simulator ctx1 = Some (Ok sf) /\
  run 7 (@new_simulator (replay_world line (fun _ t => t))) (replay_context line (fun _ t => t) ctx1 (c_log (cx sf)) 5%nat) = Some (Ok sr) /\
  valid_ctx ctx1 /\ 0 < dt (g_param (c_cfg ctx1)) /\ same_happened sf sr /\
  c_reports (cx sr) <> [] /\ dget (c_players (cx sr)) 1%nat = None /\
  exists r, dget (c_log (cx sr)) 2%nat = Some r /\ map fst (iter (pl_commands r)) = [qz 0; qz 1; qz 2; qz 3].
Proof.
  destruct (get_ok (fun s => match c_reports (cx s) with [] => false | _ => true end && negb (dmem (c_players (cx s)) 1%nat) && match dget (c_log (cx s)) 2%nat with Some pl => qs_eqb (map fst (iter (pl_commands pl))) [0#1; 1#1; 2#1; 3#1]%Q | _ => false end)
    (run 7 new_simulator ctx1)) as (sf & E1 & E2); [vm_compute; reflexivity|].
  assert (V : valid_ctx ctx1) by apply started1. assert (D := dt1).
  destruct (C131_replay line ctx1 new_simulator 7 sf V eq_refl D E1 (fun _ t => t) new_simulator 5%nat eq_refl) as (sr & R & S).
  exists sf, sr. split; [exact E1|]. split; [exact R|]. split; [exact V|]. split; [exact D|]. split; [exact S|].
  destruct S as (_ & _ & S3 & S4 & _ & S6). apply andb_true_iff in E2 as [E2 E3]. apply andb_true_iff in E2 as [E2 E4].
  split; [rewrite S4; destruct (c_reports (cx sf)); [discriminate E2|discriminate]|]. split.
  { apply dget_None. rewrite S3. apply dget_None. unfold dmem in E4. destruct (dget (c_players (cx sf)) 1%nat); [discriminate E4|reflexivity]. }
  apply get_some in E3 as (pl & E3 & E5). apply qs_eqb_eq in E5.
  destruct (S6 2%nat) as (l & r & G1 & G2 & _ & G3).
  { rewrite (C131_finished_models line ctx1 new_simulator 7 sf V eq_refl D E1). right. left. reflexivity. }
  exists r. split; [exact G2|]. rewrite E3 in G1. injection G1 as <-.
  rewrite G3. exact E5.
Qed.
