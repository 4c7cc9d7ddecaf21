(* Generated from tools/Agent.src by tools/gen_props.py. *)
(** Properties of the agents. *)
From Coq Require Import QArith Qcanon ZArith List Bool Arith Lia Permutation Sorted.
From Verif Require Import Base Num SeqModel SeqSpec SeqProofs SeqProofs2 DictLemmas SimulatorModel VehState CtrlModel CtrlSpec CtrlProofs AgentModel AgentSpec AgentProofs.
Import ListNotations.
Open Scope Qc_scope.
From Verif Require Import AgentMain.

(** ** C34 *)

(** The open-loop agent answers with the latest planned command not later than
    the observation's time, whatever else is observed; it fails exactly before
    the plan starts (or when the plan is empty). *)
Theorem C34_plan_is_played : forall (X F U : Type) (plan : seq U) (o : simobs X F), obtainable plan ->
  (forall u, np_get_commands plan o = Ok u <-> is_prev_sample plan (o_time o) u) /\
  (forall t0, nth_error (tss plan) 0 = Some t0 -> t0 <= o_time o -> exists u, np_get_commands plan o = Ok u) /\
  (forall t0, nth_error (tss plan) 0 = Some t0 -> o_time o < t0 -> np_get_commands plan o = Err UndefinedAtTime) /\
  (tss plan = [] -> np_get_commands plan o = Err ZValueError).
Proof. exact C34_plan_is_played_pf. Qed.
Print Assumptions C34_plan_is_played.

Example C34_ex : exists plan, new_seq true [0; 1; qz 2] [10; 20; 30]%nat = Ok plan /\ obtainable plan /\
  np_get_commands plan (ex_free (qf 3 2)) = Ok 20%nat /\ np_get_commands plan (ex_free (qz (-1))) = Err UndefinedAtTime.
Proof.
  eexists. split; [vm_compute; reflexivity|]. split; [eapply (ob_new _ true [0; 1; qz 2] [10; 20; 30]%nat); vm_compute; reflexivity|]. split; vm_compute; reflexivity.
Qed.

(** "Function from state to commands": the policy should be applied to the
    agent's own state.  It is not: it is called with the whole observation entry,
    so a policy that is defined on states fails. *)
Theorem C34_policy_applied_to_state_refuted : exists (pi : policy_arg vstate unit -> result Qc) name (o : simobs vstate unit) x f u,
  aget Nat.eqb (o_players o) name = Some (x, f) /\ pi (ArgState x) = Ok u /\
  pa_get_commands (pa_init (mkPA pi None) name) o <> Ok u.
Proof. exact C34_policy_applied_to_state_refuted_pf. Qed.
Print Assumptions C34_policy_applied_to_state_refuted.

(** What it does: it applies the policy to its own observation entry, and
    nobody else's matters; it fails if it does not observe itself. *)
Theorem C34_policy_partial : forall (X F U : Type) (a : policy_agent X F U) name (o : simobs X F),
  (forall x f, aget Nat.eqb (o_players o) name = Some (x, f) -> pa_get_commands (pa_init a name) o = pa_policy a (ArgObs x f)) /\
  (aget Nat.eqb (o_players o) name = None -> pa_get_commands (pa_init a name) o = Err PyKeyError).
Proof. exact C34_policy_partial_pf. Qed.
Print Assumptions C34_policy_partial.

Example C34_policy_ex : aget Nat.eqb (o_players (ex_danger 0)) 0%nat = Some (ex_me, tt) /\ aget Nat.eqb (o_players (ex_danger 0)) 5%nat = None.
Proof. split; reflexivity. Qed.

(** ** C35 *)

(** From the first observation on which an emergency is detected, the speed
    asked of the pure pursuit controller is 0 after every request, and the
    reference of the speed controller is 0 (for vehicles whose speed range
    contains 0), whatever is observed later. *)
Theorem C35_emergency_latches : forall (X F PP G Lane : Type) (env : lf_env X PP G Lane) order lane vp geo_ sb pp n a0 (os os' : list (simobs X F)) o a cmds,
  lf_started env order lane vp geo_ sb pp n a0 -> lf_run env a0 (os ++ o :: os') a cmds ->
  detects_emergency env (match sb with None => sb_default | Some b => b end) n o ->
  a_pp_speed a = 0 /\ (vp_vx_lo vp <= 0 -> 0 <= vp_vx_hi vp -> reference (a_speed a) = 0).
Proof. exact C35_emergency_latches_pf. Qed.
Print Assumptions C35_emergency_latches.

(** As long as no emergency has been detected the speed asked for is the one of
    the speed behaviour on the latest observation. *)
Theorem C35_no_emergency_tracks_behaviour : forall (X F PP G Lane : Type) (env : lf_env X PP G Lane) order lane vp geo_ sb pp n a0 (os : list (simobs X F)) o a cmds,
  lf_started env order lane vp geo_ sb pp n a0 -> lf_run env a0 (os ++ [o]) a cmds ->
  (forall o', In o' (os ++ [o]) -> ~ detects_emergency env (match sb with None => sb_default | Some b => b end) n o') ->
  asks_speed env (match sb with None => sb_default | Some b => b end) n o (a_pp_speed a).
Proof. exact C35_no_emergency_tracks_behaviour_pf. Qed.
Print Assumptions C35_no_emergency_tracks_behaviour.

(** Every command ever issued is inside the vehicle's limits. *)
Theorem C35_commands_in_limits : forall (X F PP G Lane : Type) (env : lf_env X PP G Lane) order lane vp geo_ sb pp n a0 (os : list (simobs X F)) a cmds,
  lf_started env order lane vp geo_ sb pp n a0 -> lf_run env a0 os a cmds ->
  Forall (fun cl => vp_acc_lo vp <= vc_acc (fst cl) /\ vc_acc (fst cl) <= vp_acc_hi vp /\
                    - vp_ddelta_max vp <= vc_ddelta (fst cl) /\ vc_ddelta (fst cl) <= vp_ddelta_max vp) cmds.
Proof. exact C35_commands_in_limits_pf. Qed.
Print Assumptions C35_commands_in_limits.

Example C35_ex : exists a0 a cmds, lf_started ex_env ex_order tt vp_car tt None None 0%nat a0 /\
  lf_run ex_env a0 ([ex_free 0] ++ ex_danger (qf 1 10) :: [ex_free (qf 2 10)]) a cmds /\
  detects_emergency ex_env sb_default 0%nat (ex_danger (qf 1 10)) /\ ~ detects_emergency ex_env sb_default 0%nat (ex_free (qf 2 10)) /\
  a_emergency a = true.
Proof.
  eexists; eexists; eexists. split; [eexists; split; [reflexivity|reflexivity]|]. split; [|split; [|split]].
  - change ([ex_free 0] ++ ex_danger (qf 1 10) :: [ex_free (qf 2 10)]) with ((([] ++ [ex_free 0]) ++ [ex_danger (qf 1 10)]) ++ [ex_free (qf 2 10)]).
    eapply lf_run_ask; [eapply lf_run_ask; [eapply lf_run_ask; [apply lf_run_nil|vm_compute; reflexivity]|vm_compute; reflexivity]|vm_compute; reflexivity].
  - eexists. vm_compute. reflexivity.
  - intros [r H]. vm_compute in H. discriminate.
  - reflexivity.
Qed.

(** ** C73 *)

(** The commands should be a function of the inputs.  The lights are not: they
    follow the iteration order of a set of strings, which differs between runs of
    the interpreter. *)
Theorem C73_same_inputs_same_commands_refuted : exists (env : lf_env vstate nat unit unit) order order' a1 a2 (o : simobs vstate unit) b1 c1 b2 c2,
  lights_order order /\ lights_order order' /\
  lf_started env order tt vp_car tt None None 0%nat a1 /\ lf_started env order' tt vp_car tt None None 0%nat a2 /\
  lf_get_commands env a1 o = Ok (b1, c1) /\ lf_get_commands env a2 o = Ok (b2, c2) /\ c1 <> c2.
Proof. exact C73_same_inputs_same_commands_refuted_pf. Qed.
Print Assumptions C73_same_inputs_same_commands_refuted.

(** The driving commands do not depend on it. *)
Theorem C73_same_inputs_same_commands_partial : forall (X F PP G Lane : Type) (env : lf_env X PP G Lane) order order' lane vp geo_ sb pp n a1 a2 (os : list (simobs X F)) b1 c1 b2 c2,
  lf_started env order lane vp geo_ sb pp n a1 -> lf_started env order' lane vp geo_ sb pp n a2 ->
  lf_run env a1 os b1 c1 -> lf_run env a2 os b2 c2 -> map fst c1 = map fst c2.
Proof. exact C73_same_inputs_same_commands_partial_pf. Qed.
Print Assumptions C73_same_inputs_same_commands_partial.

Example C73_ex : exists a1 b1 c1 b2 a2 c2, lf_started ex_env ex_order tt vp_car tt None None 0%nat a1 /\ lf_started ex_env ex_order2 tt vp_car tt None None 0%nat a2 /\
  lf_run ex_env a1 ([] ++ [ex_slow 0]) b1 c1 /\ lf_run ex_env a2 ([] ++ [ex_slow 0]) b2 c2.
Proof.
  eexists; eexists; eexists; eexists; eexists; eexists. split; [eexists; split; reflexivity|]. split; [eexists; split; reflexivity|].
  split; (eapply lf_run_ask; [apply lf_run_nil|vm_compute; reflexivity]).
Qed.

(** ** C74 *)

(** The controller objects given to the constructor should be the ones used.
    The speed behaviour is ... *)
Theorem C74_given_behaviour_used_partial : forall (X PP G Lane : Type) (env : lf_env X PP G Lane) order lane vp geo_ sb pp a,
  lf_new env order lane vp geo_ (Some sb) pp = Ok a -> a_sb a = sb.
Proof. exact C74_given_behaviour_used_partial_pf. Qed.
Print Assumptions C74_given_behaviour_used_partial.

(** ... but a given pure pursuit controller is ignored. *)
Theorem C74_given_pursuit_used_refuted : exists (env : lf_env vstate nat unit unit) pp a,
  lf_new env ex_order tt vp_car tt None (Some pp) = Ok a /\ a_pp a <> pp /\
  forall (X PP G Lane : Type) (env : lf_env X PP G Lane) order lane vp geo_ sb pp pp',
    lf_new env order lane vp geo_ sb pp = lf_new env order lane vp geo_ sb pp'.
Proof. exact C74_given_pursuit_used_refuted_pf. Qed.
Print Assumptions C74_given_pursuit_used_refuted.

Example C74_ex : exists a, lf_new ex_env ex_order tt vp_car tt (Some (mkSB 1 1 1 1)) None = Ok a /\ nominal_speed (a_sb a) = 1.
Proof. eexists. split; reflexivity. Qed.
