(* Generated from tools/Ctrl.src by tools/gen_props.py. *)
(** Properties of the controllers. *)
From Coq Require Import QArith Qcanon ZArith List Bool Arith Lia Permutation.
From Verif Require Import Base Num SeqModel DictLemmas SimulatorModel VehState CtrlModel CtrlSpec CtrlProofs AgentModel AgentSpec.
Import ListNotations.
Open Scope Qc_scope.
From Verif Require Import CtrlMain.

(** ** C36 *)

(** The constructor accepts exactly the parameter sets with three proper ranges. *)
Theorem C36_params_checked : forall p,
  (pid_param_new p = Ok p <-> fst (antiwindup p) < snd (antiwindup p) /\ fst (setpoint p) < snd (setpoint p) /\ fst (outlim p) < snd (outlim p)) /\
  (pid_param_new p = Ok p \/ pid_param_new p = Err PyAssertionError).
Proof. exact C36_params_checked_pf. Qed.
Print Assumptions C36_params_checked.

(** Every answer of every history is inside the output limits; once it has been
    asked, the stored integral is inside the anti-windup limits. *)
Theorem C36_limits : forall p p' h c outs, pid_param_new p' = Ok p -> after p h c outs ->
  Forall (within (outlim p)) outs /\ (outs <> [] -> within (antiwindup p) (last_i c)).
Proof. exact C36_limits_pf. Qed.
Print Assumptions C36_limits.

(** The reference in use is the last one given, saturated to the set-point
    limits; the measurement is the last one given, as is. *)
Theorem C36_reference_saturated : forall p p' h c outs, pid_param_new p' = Ok p -> after p h c outs ->
  (forall r, last_refer h None = Some r -> saturated (setpoint p) r (reference c) /\ within (setpoint p) (reference c)) /\
  (last_refer h None = None -> reference c = 0) /\ measurement c = last_measure h 0.
Proof. exact C36_reference_saturated_pf. Qed.
Print Assumptions C36_reference_saturated.

(** The answer: saturated kP*error + integral + kD*(error change)/dt, the
    integral being the saturated sum; no integration and no derivative on the
    first request or when time has not advanced. *)
Theorem C36_control_law : forall p p' h c outs t c' y, pid_param_new p' = Ok p -> after p h c outs -> get_control c t = (c', y) ->
  let e := reference c - measurement c in
  last_p c' = e /\ last_at c' = Some t /\
  saturated (outlim p)
    (kP p * e + last_i c' + match last_at c with None => 0 | Some t0 => if qeqb t t0 then 0 else kD p * ((e - last_p c) / (t - t0)) end) y /\
  saturated (antiwindup p)
    (last_i c + match last_at c with None => 0 | Some t0 => kI p * e * (t - t0) end) (last_i c').
Proof. exact C36_control_law_pf. Qed.
Print Assumptions C36_control_law.

(** Asking again at the same time, with nothing changed, repeats the answer
    without the derivative term and leaves the integral alone. *)
Theorem C36_same_time_no_derivative : forall p p' h c outs t c1 y1 c2 y2, pid_param_new p' = Ok p -> after p h c outs ->
  get_control c t = (c1, y1) -> get_control c1 t = (c2, y2) ->
  c2 = c1 /\ saturated (outlim p) (kP p * (reference c - measurement c) + last_i c1) y2.
Proof. exact C36_same_time_no_derivative_pf. Qed.
Print Assumptions C36_same_time_no_derivative.

(** With only a proportional gain, and anti-windup limits that contain 0, every
    answer is the saturated proportional term. *)
Theorem C36_proportional_only_partial : forall p p' h c outs t c' y, pid_param_new p' = Ok p -> kI p = 0 -> kD p = 0 ->
  within (antiwindup p) 0 -> after p h c outs -> get_control c t = (c', y) ->
  saturated (outlim p) (kP p * (reference c - measurement c)) y.
Proof. exact C36_proportional_only_partial_pf. Qed.
Print Assumptions C36_proportional_only_partial.

(** Without that condition it is false: the constructor accepts anti-windup
    limits that exclude 0, and then even a controller without integral gain adds
    a constant. *)
Theorem C36_proportional_only_refuted : exists p c' y, pid_param_new p = Ok p /\ kI p = 0 /\ kD p = 0 /\
  get_control (pid_new p) 0 = (c', y) /\ ~ saturated (outlim p) (kP p * (reference (pid_new p) - measurement (pid_new p))) y.
Proof. exact C36_proportional_only_refuted_pf. Qed.
Print Assumptions C36_proportional_only_refuted.

Example C36_ex : exists p c outs, pid_param_new p = Ok p /\ after p [Refer (qz 100); Measure (qz 1); Ask 0; Ask (qz 1)] c outs /\ outs = [qz 5; qz 5].
Proof.
  exists (mkPP (qz 4) (qf 1 100) (qf 1 10) (qz (-2), qz 2) (qz (-3), qz 40) (qz (-8), qz 5)). eexists; eexists. split; [reflexivity|]. split.
  - change [Refer (qz 100); Measure (qz 1); Ask 0; Ask (qz 1)] with (((([] ++ [Refer (qz 100)]) ++ [Measure (qz 1)]) ++ [Ask 0]) ++ [Ask (qz 1)]).
    eapply after_call; [eapply after_call; [eapply after_call; [eapply after_call; [apply after_new|reflexivity]|reflexivity]|reflexivity]|reflexivity].
  - qcompute.
Qed.

(** ** C37 *)

(** What the reference is: 0 when yielding or in an emergency; otherwise the
    smallest of the nominal speed and the following speeds. *)
Theorem C37_reference : forall (X F : Type) (K : kin X) sp me (l : list (player * (X * F))) ref em,
  NoDup (map fst l) -> get_speed_ref K sp me (Some l) = Ok (ref, em) ->
  exists mine fm myvel, aget Nat.eqb l me = Some (mine, fm) /\ vx_of K mine = Some myvel /\
    let others := other_agent K me l mine in
    (em = true <-> exists r v, others r v /\ is_emergency sp myvel r v) /\
    (em = true -> ref = 0) /\
    ((exists r v, others r v /\ must_yield sp r v) -> ref = 0) /\
    (em = false -> ~ (exists r v, others r v /\ must_yield sp r v) ->
      ref <= nominal_speed sp /\
      (forall r v, others r v -> too_close_ahead sp myvel r v -> ref <= follow_speed myvel v) /\
      (ref = nominal_speed sp \/ exists r v, others r v /\ too_close_ahead sp myvel r v /\ ref = follow_speed myvel v)).
Proof. exact C37_reference_pf. Qed.
Print Assumptions C37_reference.

(** Never backwards, never above the nominal speed, never faster than a vehicle
    ahead that is too close (or 0). *)
Theorem C37_bounds : forall (X F : Type) (K : kin X) sp me (l : list (player * (X * F))) ref em,
  0 <= nominal_speed sp -> NoDup (map fst l) -> get_speed_ref K sp me (Some l) = Ok (ref, em) ->
  0 <= ref /\ ref <= nominal_speed sp /\
  (forall mine fm myvel r v, aget Nat.eqb l me = Some (mine, fm) -> vx_of K mine = Some myvel ->
     other_agent K me l mine r v -> too_close_ahead sp myvel r v -> ref <= v \/ ref = 0).
Proof. exact C37_bounds_pf. Qed.
Print Assumptions C37_bounds.

(** More agents never make it faster, and never clear an emergency; in
    particular the order of the observations is irrelevant. *)
Theorem C37_more_agents_never_faster : forall (X F : Type) (K : kin X) sp me (l l' : list (player * (X * F))) ref em ref' em',
  0 <= nominal_speed sp -> NoDup (map fst l) -> NoDup (map fst l') -> incl l l' ->
  get_speed_ref K sp me (Some l) = Ok (ref, em) -> get_speed_ref K sp me (Some l') = Ok (ref', em') ->
  ref' <= ref /\ (em = true -> em' = true).
Proof. exact C37_more_agents_never_faster_pf. Qed.
Print Assumptions C37_more_agents_never_faster.

Theorem C37_order_irrelevant : forall (X F : Type) (K : kin X) sp me (l l' : list (player * (X * F))) ref em ref' em',
  0 <= nominal_speed sp -> NoDup (map fst l) -> Permutation l l' ->
  get_speed_ref K sp me (Some l) = Ok (ref, em) -> get_speed_ref K sp me (Some l') = Ok (ref', em') -> ref' = ref /\ em' = em.
Proof. exact C37_order_irrelevant_pf. Qed.
Print Assumptions C37_order_irrelevant.

(** Asking before any observation is an error. *)
Theorem C37_needs_observations : forall (X F : Type) (K : kin X) sp me,
  get_speed_ref (F := F) K sp me None = Err PyTypeError.
Proof. exact C37_needs_observations_pf. Qed.
Print Assumptions C37_needs_observations.

Example C37_ex : exists r1 r2, get_speed_ref ex_kin sb_default 0%nat (Some (o_players (ex_danger 0))) = Ok (r1, true) /\ r1 = 0 /\
  get_speed_ref ex_kin sb_default 0%nat (Some (o_players (ex_slow 0))) = Ok (r2, false) /\ r2 = qz 6 /\
  NoDup (map fst (o_players (ex_slow 0))) /\ incl (o_players (ex_free 0)) (o_players (ex_slow 0)).
Proof.
  eexists; eexists. split; [vm_compute; reflexivity|]. split; [qcompute|]. split; [vm_compute; reflexivity|]. split; [qcompute|].
  split; [repeat constructor; cbn; intuition congruence|]. intros e [<-|[]]; left; reflexivity.
Qed.

(** ** C39 *)

(** For every vehicle and every history of use, the steering-rate command is
    inside the steering-rate limit and the steering reference inside the
    steering limit. *)
Theorem C39_steering_rate_in_limits : forall vp c0 h c outs, steer_controller vp = Ok c0 -> after (pid_p c0) h c outs ->
  Forall (fun y => - vp_ddelta_max vp <= y /\ y <= vp_ddelta_max vp) outs /\
  - vp_delta_max vp <= reference c /\ reference c <= vp_delta_max vp.
Proof. exact C39_steering_rate_in_limits_pf. Qed.
Print Assumptions C39_steering_rate_in_limits.

Theorem C39_speed_command_in_limits : forall vp c0 h c outs, speed_controller vp = Ok c0 -> after (pid_p c0) h c outs ->
  Forall (fun y => vp_acc_lo vp <= y /\ y <= vp_acc_hi vp) outs /\
  (last_refer h None <> None -> vp_vx_lo vp <= reference c /\ reference c <= vp_vx_hi vp).
Proof. exact C39_speed_command_in_limits_pf. Qed.
Print Assumptions C39_speed_command_in_limits.

(** Every vehicle that satisfies its own constructor's checks gets controllers. *)
Theorem C39_controllers_exist : forall vp, vparams_ok vp = true ->
  (exists c, steer_controller vp = Ok c) /\ (exists c, speed_controller vp = Ok c).
Proof. exact C39_controllers_exist_pf. Qed.
Print Assumptions C39_controllers_exist.

Example C39_ex : vparams_ok vp_car = true /\ exists c0 c, steer_controller vp_car = Ok c0 /\ after (pid_p c0) ([] ++ [Refer (qz 9)]) c [] /\ reference c = 1.
Proof.
  split; [reflexivity|]. eexists; eexists. split; [reflexivity|]. split; [eapply (after_call _ [] _ [] (Refer (qz 9)) _ None); [apply after_new|reflexivity]|]. qcompute.
Qed.
