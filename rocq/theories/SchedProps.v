(* Generated from tools/Sched.src by tools/gen_props.py. *)
(** When agents are asked. *)
From Coq Require Import QArith Qcanon ZArith List Bool Arith Lia.
From Verif Require Import Base Num SeqModel DictLemmas SimulatorModel SimulatorSpec SimulatorWorld SimulatorMain.
Import ListNotations.
Open Scope Qc_scope.
From Verif Require Import SchedMain.

(** ** C132  The schedule of the command requests *)

(** Let n be the number of steps in a command period, rounded up (at least 1).  Every agent is asked at the start and then at every n-th iteration it takes part in, and at no other; while it is in the simulation it takes part in every iteration. *)
Theorem C132_schedule : forall W (c : ctx W) s0 k s p n, started c s0 -> 0 < dt (g_param (c_cfg c)) -> after s0 k s -> In p (akeys (c_models c)) ->
  (0 < n)%nat -> dt_commands (g_param (c_cfg c)) <= qn n * dt (g_param (c_cfg c)) -> (n = 1%nat \/ qn (n - 1) * dt (g_param (c_cfg c)) < dt_commands (g_param (c_cfg c))) ->
  map ask_t (asks s p) = map (fun j => c_time c + qn (j * n) * dt (g_param (c_cfg c))) (List.seq 0 ((length (moves s p) + n - 1) / n)) /\
  (active s p -> length (moves s p) = k).
Proof. exact C132_schedule_pf. Qed.
Print Assumptions C132_schedule.

(** A simulation with the default parameters that starts at time 0: the clock shows k/20 after k iterations; everybody is asked at every second iteration, every tenth of a second; no iteration begins after 6 seconds, so there are at most 121; and apart from that it ends when nobody is left, or nobody with a mission, or time has passed since the first collision. *)
Theorem C132_defaults : forall W (c : ctx W) s0 k s, started c s0 -> g_param (c_cfg c) = default_param -> c_time c = 0 -> reports_stamped W -> after s0 k s ->
  time s = qn k / qz 20 /\ (k <= 121)%nat /\
  (forall p, active s p -> map ask_t (asks s p) = map (fun j => qn j / qz 10) (List.seq 0 ((k + 1) / 2))) /\
  ((0 < k)%nat -> (c_term (cx s) = true <->
    k = 121%nat \/ (exists f, c_first (cx s) = Some f /\ f < time s) \/ (forall p, ~ active s p) \/
    (g_missions (c_cfg c) <> [] /\ forall p, In p (akeys (g_missions (c_cfg c))) -> ~ active s p))).
Proof. exact C132_defaults_pf. Qed.
Print Assumptions C132_defaults.

Example C132_ex : started ctx1 start1 /\ 0 < dt (g_param (c_cfg ctx1)) /\ dt_commands (g_param (c_cfg ctx1)) <= qn 2 * dt (g_param (c_cfg ctx1)) /\ qn 1 * dt (g_param (c_cfg ctx1)) < dt_commands (g_param (c_cfg ctx1)) /\
  after start1 5 (nth_st start1 5) /\ map (fun a => this (ask_t a)) (asks (nth_st start1 5) 2) = [0#1; 1#1; 2#1]%Q /\ length (moves (nth_st start1 5) 2) = 5%nat /\ In 2%nat (akeys (c_models ctx1)) /\
  (exists s0 s1, started ctx_default s0 /\ after s0 1 s1 /\ active s1 1) /\ g_param (c_cfg ctx_default) = default_param /\ c_time ctx_default = 0 /\ reports_stamped line.
Proof.
  split; [exact started1|]. split; [exact dt1|]. split; [vm_compute; discriminate|]. split; [vm_compute; reflexivity|]. split; [apply after1; lia|]. split; [vm_compute; reflexivity|]. split; [vm_compute; reflexivity|]. split; [right; left; reflexivity|].
  split.
  - destruct (get_res (fun s => match step s with Ok s' => negb (c_term (cx s)) && dmem (c_players (cx s')) 1%nat | Err _ => false end) (init_run ctx_default (new_simulator (W := line)))) as (s & E1 & E2); [vm_compute; reflexivity|].
    destruct (step s) as [s'|] eqn:E3; [|discriminate]. apply andb_true_iff in E2 as [E2 E4]. exists s, s'. split; [split; [|exists new_simulator; split; [reflexivity|exact E1]]|].
    + split; [vm_compute; reflexivity|]. repeat split; cbn; repeat constructor; cbn; intuition congruence.
    + split; [econstructor; [constructor|destruct (c_term (cx s)); [discriminate|reflexivity]|exact E3]|]. apply SimulatorProofs.dmem_spec. exact E4.
  - split; [reflexivity|]. split; [reflexivity|]. split; [intros sc p q t a b r|intros p ob t m r]; cbn; intros [= <-]; reflexivity.
Qed.
