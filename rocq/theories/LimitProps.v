(* Generated from tools/Limit.src by tools/gen_props.py. *)
(** The time limits only cut a simulation short. *)
From Coq Require Import QArith Qcanon ZArith List Bool Arith Lia.
From Verif Require Import Base Num SeqModel SeqProofs SimulatorModel SimulatorSpec DictLemmas SimulatorProofs SimulatorProofs2 SimulatorProofs4 SimulatorProofs5 SimulatorProofs6 SimulatorProofs7 SimulatorWorld ApartMain LimitSpec LimitProofs.
Import ListNotations.
Open Scope Qc_scope.
From Verif Require Import LimitMain.

(** ** C139  A longer time limit only extends a simulation *)

(** Raise max_sim_time, sim_time_after_collision or both.  As long as the simulation with the smaller limits is running, the other one is in the same state after as many iterations: the same models, agents, sensors, logs, reports and calls of external code. *)
Theorem C139_meanwhile : forall W (c : ctx W) limit aft m s0 k s, max_sim_time (g_param (c_cfg c)) <= limit -> after_collision (g_param (c_cfg c)) <= aft ->
  init_run c m = Ok s0 -> after s0 k s -> c_term (cx s) = false ->
  exists z0 z, init_run (with_limits limit aft c) m = Ok z0 /\ after z0 k z /\ cx z = with_limits limit aft (cx s) /\ sm z = sm s /\ ev z = ev s.
Proof. exact C139_meanwhile_pf. Qed.
Print Assumptions C139_meanwhile.

(** If both runs complete, the one with the larger limits went on where the other one stopped: each player's log of states, commands, extras and computation times is the log of the short run, followed by samples from the end of the short run on; so are the reports of collisions. *)
Theorem C139_goes_on : forall W (c : ctx W) limit aft m fuel fuel' s z, valid_ctx c -> unused m -> 0 < dt (g_param (c_cfg c)) ->
  max_sim_time (g_param (c_cfg c)) <= limit -> after_collision (g_param (c_cfg c)) <= aft ->
  run fuel m c = Some (Ok s) -> run fuel' m (with_limits limit aft c) = Some (Ok z) -> goes_on s z.
Proof. exact C139_goes_on_pf. Qed.
Print Assumptions C139_goes_on.

(** An exception of the short run is an exception of the long run, after as many iterations. *)
Theorem C139_raises : forall W (c : ctx W) limit aft m fuel e, max_sim_time (g_param (c_cfg c)) <= limit -> after_collision (g_param (c_cfg c)) <= aft ->
  valid_ctx c -> unused m -> 0 < dt (g_param (c_cfg c)) ->
  run fuel m c = Some (Err e) -> run fuel m (with_limits limit aft c) = Some (Err e).
Proof. exact C139_raises_pf. Qed.
Print Assumptions C139_raises.

(** A run that stopped within its limits, because nobody is left or all missions are accomplished, does not depend on them: with larger limits it ends after as many iterations in the same state. *)
Theorem C139_unaffected : forall W (c : ctx W) limit aft m fuel s, max_sim_time (g_param (c_cfg c)) <= limit -> after_collision (g_param (c_cfg c)) <= aft ->
  run fuel m c = Some (Ok s) -> within_limits s ->
  exists z, run fuel m (with_limits limit aft c) = Some (Ok z) /\ cx z = with_limits limit aft (cx s) /\ sm z = sm s /\ ev z = ev s.
Proof. exact C139_unaffected_pf. Qed.
Print Assumptions C139_unaffected.

(** Three players on a line, limits 1 and 3: the long run extends the logs of players 2 and 3 and adds reports. *)
Example C139_goes_on_ex : let c := with_limits 1 (qz 10) ctx1 in let s := ended (run 20 new_simulator c) c in let z := ended (run 20 new_simulator ctx1) c in
  valid_ctx c /\ run 20 new_simulator c = Some (Ok s) /\ run 20 new_simulator (with_limits (qz 3) (qz 10) c) = Some (Ok z) /\ goes_on s z /\
  qs_eqb (map fst (states_log s 3%nat)) [0; 1 # 2; 1]%Q = true /\ qs_eqb (map fst (states_log z 3%nat)) [0; 1 # 2; 1; 3 # 2; 2; 5 # 2; 3]%Q = true /\
  Nat.ltb (length (c_reports (cx s))) (length (c_reports (cx z))) = true.
Proof.
  cbv zeta. set (c := with_limits 1 (qz 10) ctx1).
  assert (V : valid_ctx c) by exact (proj1 started1).
  assert (R1 : run 20 new_simulator c = Some (Ok (ended (run 20 new_simulator c) c))).
  { assert (H : match run 20 new_simulator c with Some (Ok _) => true | _ => false end = true) by (vm_compute; reflexivity). destruct (run 20 new_simulator c) as [[s|]|]; [reflexivity|discriminate|discriminate]. }
  assert (R2 : run 20 new_simulator (with_limits (qz 3) (qz 10) c) = Some (Ok (ended (run 20 new_simulator ctx1) c))).
  { change (with_limits (qz 3) (qz 10) c) with ctx1. assert (H : match run 20 new_simulator ctx1 with Some (Ok _) => true | _ => false end = true) by (vm_compute; reflexivity). destruct (run 20 new_simulator ctx1) as [[s|]|]; [reflexivity|discriminate|discriminate]. }
  split; [exact V|]. split; [exact R1|]. split; [exact R2|].
  split; [apply (C139_goes_on line c (qz 3) (qz 10) new_simulator 20 20 _ _ V eq_refl); [vm_compute; reflexivity|vm_compute; discriminate|vm_compute; discriminate|exact R1|exact R2]|].
  split; [vm_compute; reflexivity|]. split; vm_compute; reflexivity.
Qed.

(** A mission accomplished before either limit. *)
Example C139_unaffected_ex : let c := @mkCtx line (@mkConfig line [] (mkParam (qf 1 2) (qz 1) (qz 3) (qz 10)) [(8%nat, qz 1)] true 0%nat) [(8%nat, qz 0)] [(8%nat, qz 1)] [] [] 0 false [] None in
  let s := ended (run 20 new_simulator c) c in run 20 new_simulator c = Some (Ok s) /\ within_limits s /\ exists z, run 20 new_simulator (with_limits (qz 30) (qz 10) c) = Some (Ok z) /\ cx z = with_limits (qz 30) (qz 10) (cx s).
Proof.
  cbv zeta. set (c := @mkCtx line _ _ _ _ _ _ _ _ _).
  assert (R1 : run 20 new_simulator c = Some (Ok (ended (run 20 new_simulator c) c))).
  { assert (H : match run 20 new_simulator c with Some (Ok _) => true | _ => false end = true) by (vm_compute; reflexivity). destruct (run 20 new_simulator c) as [[s|]|]; [reflexivity|discriminate|discriminate]. }
  assert (Wl : within_limits (ended (run 20 new_simulator c) c)).
  { split; [vm_compute; discriminate|]. assert (H : c_first (cx (ended (run 20 new_simulator c) c)) = None) by (vm_compute; reflexivity). intros f Hf. rewrite H in Hf. discriminate Hf. }
  split; [exact R1|]. split; [exact Wl|].
  destruct (C139_unaffected line c (qz 30) (qz 10) new_simulator 20 _ ltac:(vm_compute; discriminate) ltac:(vm_compute; discriminate) R1 Wl) as (z & Z1 & Z2 & _). exists z. split; assumption.
Qed.
