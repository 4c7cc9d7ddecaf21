(* Generated from tools/Heap.src by tools/gen_props.py. *)
(** Objects and references: theorems about HeapModel. *)
From Coq Require Import QArith Qcanon List Bool Arith Lia.
From Verif Require Import Base Num SeqModel SimulatorModel DictLemmas HeapModel HeapSpec HeapProofs HeapProofs2 HeapProofs3 HeapExamples.
Import ListNotations.
Open Scope nat_scope.
From Verif Require Import HeapMain.

(** C108.  Whatever the agents do to the objects they are given, a state in the
    log reads, after the run, as the state of the player was at that time. *)

Theorem C108_states_log : forall H (cfg : hconfig H) s0 s s1 s2 fuel p,
  about_to_run s0 -> reached cfg s0 s -> t_term s = false -> In p (akeys (t_players s)) ->
  h_loop cfg fuel s = Some (Ok s1) -> h_write_logs s1 = Ok s2 ->
  exists l x, dget (t_log s2) p = Some l /\ state_of s p = Some x /\ In (t_time s, x) (read_states s2 l).
Proof. exact C108_states_log_pf. Qed.
Print Assumptions C108_states_log.

Theorem C108_entries_stay : forall H (cfg : hconfig H) s0 s s' p t r,
  about_to_run s0 -> reached cfg s0 s -> later cfg s s' -> logged s p t r ->
  logged s' p t r /\ m_x (t_mem s') r = m_x (t_mem s) r.
Proof. exact C108_entries_stay_pf. Qed.
Print Assumptions C108_entries_stay.

(** Non-vacuity: two players start from the same state object; one agent writes
    100 into every state it is shown, the other keeps one commands object and
    changes it.  The run ends, with a collision, and the log is right. *)

Example C108_ex : about_to_run shared_start /\
  (exists s, h_init_run ex_cfg shared_start = Ok s /\ t_term s = false /\ In 1 (akeys (t_players s))) /\
  (exists s' l, h_run ex_cfg 9 shared_start = Some (Ok s') /\ dget (t_log s') 1 = Some l /\
     read_states s' l = [(qz 0, qz 0); (qz 1, qz 11); (qz 2, qz 13); (qz 3, qz 16)] /\ length (t_reports s') = 1).
Proof.
  split; [exact shared_start_ok|]. split; [exists (after_init shared_start); split; [exact shared_init|split; [vm_compute; reflexivity|vm_compute; right; left; reflexivity]]|].
  exists (end_of shared_start), (log_of (end_of shared_start) 1). split; [exact shared_run|]. split; [apply log_of_eq; vm_compute; reflexivity|]. split; [exact shared_log|vm_compute; reflexivity].
Qed.

(** C109.  Agents reach the states only through the commands they return. *)

Theorem C109_states_move_by_commands : forall H (cfg : hconfig H) s0 s s1 s2 p,
  about_to_run s0 -> reached cfg s0 s -> h_pre_update cfg s = Ok s1 -> h_update cfg s1 = Ok s2 ->
  (In p (akeys (t_players s)) ->
     exists r b u r' b', dget (t_models s) p = Some (r, b) /\ dget (t_models s2) p = Some (r', b') /\
       h_step H (m_x (t_mem s) r, b) u (dt (hc_param cfg)) = Ok (m_x (t_mem s2) r', b')) /\
  (~ In p (akeys (t_players s)) -> state_of s2 p = state_of s p).
Proof. exact C109_states_move_by_commands_pf. Qed.
Print Assumptions C109_states_move_by_commands.

Theorem C109_start_states_untouched : forall H (cfg : hconfig H) s0 s r,
  about_to_run s0 -> reached cfg s0 s -> r < m_nx (t_mem s0) -> ~ In r (m_seen (t_mem s0)) ->
  m_x (t_mem s) r = m_x (t_mem s0) r.
Proof. exact C109_start_states_untouched_pf. Qed.
Print Assumptions C109_start_states_untouched.

(** Non-vacuity: the content of the shared start object is 0 before and after. *)

Example C109_ex : about_to_run shared_start /\ state_of shared_start 0 = Some (qz 0) /\ state_of shared_start 1 = Some (qz 0) /\
  (exists s s1 s2, reached ex_cfg shared_start s /\ h_pre_update ex_cfg s = Ok s1 /\ h_update ex_cfg s1 = Ok s2 /\ state_of s2 1 = Some (qz 1)) /\
  0 < m_nx (t_mem shared_start) /\ ~ In 0 (m_seen (t_mem shared_start)) /\
  m_x (t_mem (end_of shared_start)) 0 = qz 0.
Proof.
  split; [exact shared_start_ok|]. split; [reflexivity|]. split; [reflexivity|]. split.
  { exists (after_init shared_start), shared_seen, shared_next.
    split; [apply reached_init; exact shared_init|]. split; [exact shared_pre|]. split; [exact shared_update|exact shared_moved]. }
  split; [exact (Nat.lt_0_succ 0)|]. split; [intros []|]. exact shared_kept.
Qed.

(** C110.  Every time commands are due, the agents are shown new objects with
    the states of the moment: what an agent did to the objects it was given
    before makes no difference. *)

Theorem C110_shown_states : forall H (cfg : hconfig H) s0 s s1,
  about_to_run s0 -> reached cfg s0 s -> h_need cfg s = true -> h_pre_update cfg s = Ok s1 ->
  akeys (o_players (t_obs s1)) = akeys (t_players s) /\ o_time (t_obs s1) = t_time s /\
  forall p r f, In (p, (r, f)) (o_players (t_obs s1)) -> m_nx (t_mem s) <= r /\ state_of s p = Some (m_x (t_mem s1) r).
Proof. exact C110_shown_states_pf. Qed.
Print Assumptions C110_shown_states.

(** But the agents of one instant are shown the same objects: an agent that
    writes to a state changes what the agents asked after it are shown. *)

Theorem C110_same_objects_refuted : exists H (cfg : hconfig H) s0 s s1 s2 p q r f x,
  about_to_run s0 /\ reached cfg s0 s /\ h_pre_update cfg s = Ok s1 /\ akeys (t_players s1) = [p; q] /\
  h_update_player cfg (t_time s1) s1 p = Ok s2 /\ In (p, (r, f)) (o_players (t_obs s2)) /\
  state_of s p = Some x /\ m_x (t_mem s2) r <> x.
Proof. exact C110_same_objects_refuted_pf. Qed.
Print Assumptions C110_same_objects_refuted.

(** The log of commands keeps the objects the agents return: when an agent
    changes the object later, the log changes.  Here the commands in the log are
    not those that moved the player from one logged state to the next. *)

Theorem C110_commands_log_refuted : exists H (cfg : hconfig H) s0 fuel s' p l t u x x',
  about_to_run s0 /\ h_run cfg fuel s0 = Some (Ok s') /\ t_reports s' = [] /\ dt_commands (hc_param cfg) = dt (hc_param cfg) /\
  dget (t_log s') p = Some l /\ In (t, u) (read_commands s' l) /\ In (t, x) (read_states s' l) /\
  In ((t + dt (hc_param cfg))%Qc, x') (read_states s' l) /\
  forall b b', h_step H (x, b) u (dt (hc_param cfg)) <> Ok (x', b').
Proof. exact C110_commands_log_refuted_pf. Qed.
Print Assumptions C110_commands_log_refuted.

Example C110_ex : about_to_run shared_start /\ reached ex_cfg shared_start (after_init shared_start) /\ h_need ex_cfg (after_init shared_start) = true /\
  (exists s1, h_pre_update ex_cfg (after_init shared_start) = Ok s1 /\ akeys (o_players (t_obs s1)) = [0; 1]).
Proof.
  split; [exact shared_start_ok|]. split; [apply reached_init; exact shared_init|]. split; [vm_compute; reflexivity|].
  exists shared_seen. split; [exact shared_pre|vm_compute; reflexivity].
Qed.

(** C111.  With agents and sensors that write to nothing, the program with
    references and the simulator of SimulatorModel, which passes values, do the
    same: same result, and what the references read at the end is what the
    values are. *)

Theorem C111_values_suffice : forall H cmds extra sense_ (cfg : hconfig H) fuel s,
  well_mannered H cmds extra sense_ (t_mem s) -> about_to_run s ->
  match h_run cfg fuel s, run fuel (read_sim H cmds extra sense_ s) (read_ctx H cmds extra sense_ cfg s) with
  | None, None => True
  | Some (Ok s'), Some (Ok v) => cx v = read_ctx H cmds extra sense_ cfg s' /\ sm v = read_sim H cmds extra sense_ s'
  | Some (Err e), Some (Err e') => e = e'
  | _, _ => False
  end.
Proof. exact C111_values_suffice_pf. Qed.
Print Assumptions C111_values_suffice.

Example C111_ex : well_mannered polite_world polite_cmds polite_extra polite_sense (t_mem polite_start) /\ about_to_run polite_start /\
  exists s', h_run polite_cfg 9 polite_start = Some (Ok s').
Proof. split; [exact polite_ok|]. split; [exact polite_start_ok|]. eexists. exact polite_run. Qed.
