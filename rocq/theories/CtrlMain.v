(* Generated from tools/Ctrl.src by tools/gen_props.py. *)
(** Properties of the controllers. *)
From Coq Require Import QArith Qcanon ZArith List Bool Arith Lia Permutation.
From Verif Require Import Base Num SeqModel DictLemmas SimulatorModel VehState CtrlModel CtrlSpec CtrlProofs AgentModel AgentSpec.
Import ListNotations.
Open Scope Qc_scope.

(** The constructor accepts exactly the parameter sets with three proper ranges. *)
Lemma C36_params_checked_pf : forall p,
  (pid_param_new p = Ok p <-> fst (antiwindup p) < snd (antiwindup p) /\ fst (setpoint p) < snd (setpoint p) /\ fst (outlim p) < snd (outlim p)) /\
  (pid_param_new p = Ok p \/ pid_param_new p = Err PyAssertionError).
Proof.
  intro p. split; [rewrite pid_param_new_ok; tauto|]. unfold pid_param_new. repeat destruct (qltb _ _); auto.
Qed.

(** Every answer of every history is inside the output limits; once it has been
    asked, the stored integral is inside the anti-windup limits. *)
Lemma C36_limits_pf : forall p p' h c outs, pid_param_new p' = Ok p -> after p h c outs ->
  Forall (within (outlim p)) outs /\ (outs <> [] -> within (antiwindup p) (last_i c)).
Proof.
  intros p p' h c outs H A. apply pid_param_new_ok in H as (-> & H1 & _ & H3).
  split; [eapply after_outputs; [apply Qclt_le_weak; exact H3|exact A]|].
  intro N. destruct (after_integral _ _ _ _ (Qclt_le_weak _ _ H1) A) as [(_ & _ & E)|[_ E]]; [contradiction|exact E].
Qed.

(** The reference in use is the last one given, saturated to the set-point
    limits; the measurement is the last one given, as is. *)
Lemma C36_reference_saturated_pf : forall p p' h c outs, pid_param_new p' = Ok p -> after p h c outs ->
  (forall r, last_refer h None = Some r -> saturated (setpoint p) r (reference c) /\ within (setpoint p) (reference c)) /\
  (last_refer h None = None -> reference c = 0) /\ measurement c = last_measure h 0.
Proof.
  intros p p' h c outs H A. apply pid_param_new_ok in H as (-> & _ & H2 & _). apply Qclt_le_weak in H2.
  rewrite (after_refer _ _ _ _ A). split; [intros r ->; split; [apply clip_saturated; exact H2|apply clip_within; exact H2]|].
  split; [intros ->; reflexivity|]. eapply after_measure; exact A.
Qed.

(** The answer: saturated kP*error + integral + kD*(error change)/dt, the
    integral being the saturated sum; no integration and no derivative on the
    first request or when time has not advanced. *)
Lemma C36_control_law_pf : forall p p' h c outs t c' y, pid_param_new p' = Ok p -> after p h c outs -> get_control c t = (c', y) ->
  let e := reference c - measurement c in
  last_p c' = e /\ last_at c' = Some t /\
  saturated (outlim p)
    (kP p * e + last_i c' + match last_at c with None => 0 | Some t0 => if qeqb t t0 then 0 else kD p * ((e - last_p c) / (t - t0)) end) y /\
  saturated (antiwindup p)
    (last_i c + match last_at c with None => 0 | Some t0 => kI p * e * (t - t0) end) (last_i c').
Proof.
  intros p p' h c outs t c' y H A E. apply pid_param_new_ok in H as (-> & H1 & _ & H3).
  apply Qclt_le_weak in H1, H3. pose proof (after_param _ _ _ _ A) as Hp. unfold get_control in E. cbv zeta in *. rewrite Hp in E. injection E as <- <-.
  cbn [last_p last_at last_i]. split; [reflexivity|]. split; [reflexivity|].
  assert (Z : forall a b : Qc, a = b -> a - b = 0) by (intros; qlra).
  split.
  - match goal with |- saturated _ ?a (qclip ?b _ _) => replace a with b; [apply clip_saturated; exact H3|] end.
    destruct (last_at c) as [t0|].
    + destruct (qeqb_spec t t0) as [->|N].
      * rewrite (Z t0 t0 eq_refl). rewrite qeqb_refl. cbn [negb]. qlra.
      * destruct (qeqb_spec (t - t0) 0) as [C|C]; [exfalso; apply N; qlra|]. reflexivity.
    + rewrite qeqb_refl. cbn [negb]. qlra.
  - match goal with |- saturated _ ?a (qclip ?b _ _) => replace a with b; [apply clip_saturated; exact H1|] end.
    destruct (last_at c) as [t0|]; [reflexivity|qlra].
Qed.

(** Asking again at the same time, with nothing changed, repeats the answer
    without the derivative term and leaves the integral alone. *)
Lemma C36_same_time_no_derivative_pf : forall p p' h c outs t c1 y1 c2 y2, pid_param_new p' = Ok p -> after p h c outs ->
  get_control c t = (c1, y1) -> get_control c1 t = (c2, y2) ->
  c2 = c1 /\ saturated (outlim p) (kP p * (reference c - measurement c) + last_i c1) y2.
Proof.
  intros p p' h c outs t c1 y1 c2 y2 H A E1 E2. apply pid_param_new_ok in H as (-> & H1 & _ & H3).
  apply Qclt_le_weak in H1, H3. pose proof (after_param _ _ _ _ A) as Hp. unfold get_control in E1. cbv zeta in E1. rewrite Hp in E1.
  injection E1 as <- _. unfold get_control in E2. cbn [pid_p reference measurement last_at last_i last_p] in E2.
  replace (t - t) with 0 in E2 by qlra. rewrite qeqb_refl in E2. cbn [negb] in E2.
  injection E2 as <- <-. cbn [last_i].
  match goal with |- context [qclip (qclip ?a ?l ?u + ?b) _ _] => set (i := qclip a l u) in * ; assert (Ei : qclip (i + b) l u = i) end.
  { replace (i + _) with i by qlra. apply clip_id. apply clip_within. exact H1. }
  rewrite Ei. split; [reflexivity|].
  match goal with |- saturated _ ?a (qclip ?b _ _) => assert (Q : b = a) by qlra; rewrite Q end.
  apply clip_saturated; exact H3.
Qed.

(** With only a proportional gain, and anti-windup limits that contain 0, every
    answer is the saturated proportional term. *)
Lemma C36_proportional_only_partial_pf : forall p p' h c outs t c' y, pid_param_new p' = Ok p -> kI p = 0 -> kD p = 0 ->
  within (antiwindup p) 0 -> after p h c outs -> get_control c t = (c', y) ->
  saturated (outlim p) (kP p * (reference c - measurement c)) y.
Proof.
  intros p p' h c outs t c' y H I D W A E.
  assert (L : last_i c = 0).
  { clear E H. induction A as [|h c outs o c1 y1 A IH E]; [reflexivity|]. pose proof (after_param _ _ _ _ A) as Hp.
    destruct o; cbn in E; injection E as <- _; try exact IH. cbn [last_i]. rewrite Hp, IH, I.
    replace (0 + _) with 0 by qlra. apply clip_id. exact W. }
  destruct (C36_control_law_pf p p' h c outs t c' y H A E) as (_ & _ & S & Si).
  assert (L' : last_i c' = 0).
  { destruct Si as [[C ->]|[[C ->]|[_ ->]]]; rewrite L, I in *; destruct W as [W1 W2]; destruct (last_at c); try qlra. }
  rewrite L', D in S. match type of S with saturated _ ?a _ => replace (kP p * (reference c - measurement c)) with a; [exact S|] end.
  destruct (last_at c) as [t0|]; [destruct (qeqb t t0)|]; qlra.
Qed.

(** Without that condition it is false: the constructor accepts anti-windup
    limits that exclude 0, and then even a controller without integral gain adds
    a constant. *)
Lemma C36_proportional_only_refuted_pf : exists p c' y, pid_param_new p = Ok p /\ kI p = 0 /\ kD p = 0 /\
  get_control (pid_new p) 0 = (c', y) /\ ~ saturated (outlim p) (kP p * (reference (pid_new p) - measurement (pid_new p))) y.
Proof.
  exists (mkPP 1 0 0 (qz 1, qz 2) (qz (-5), qz 5) (qz (-5), qz 5)). eexists; eexists.
  split; [reflexivity|]. split; [reflexivity|]. split; [reflexivity|]. split; [vm_compute; reflexivity|].
  intros [[A B]|[[A B]|[A B]]]; [vm_compute in A; discriminate|vm_compute in A; discriminate|vm_compute in B; discriminate].
Qed.

(** What the reference is: 0 when yielding or in an emergency; otherwise the
    smallest of the nominal speed and the following speeds. *)
Lemma C37_reference_pf : forall (X F : Type) (K : kin X) sp me (l : list (player * (X * F))) ref em,
  NoDup (map fst l) -> get_speed_ref K sp me (Some l) = Ok (ref, em) ->
  exists mine fm myvel, aget Nat.eqb l me = Some (mine, fm) /\ vx_of K mine = Some myvel /\
    let others := other_agent K me l mine in
    (em = true <-> exists r v, others r v /\ is_emergency sp myvel r v) /\
    (em = true -> ref = 0) /\
    ((exists r v, others r v /\ must_yield sp r v) -> ref = 0) /\
    (em = false -> ~ (exists r v, others r v /\ must_yield sp r v) ->
      ref <= nominal_speed sp /\
      (forall r v, others r v -> too_close_ahead sp myvel r v -> ref <= follow_speed myvel v) /\
      (ref = nominal_speed sp \/ exists r v, others r v /\ too_close_ahead sp myvel r v /\ ref = follow_speed myvel v)).
Proof.
  intros X F K sp me l ref em N H. destruct (speed_ref_spec K sp me l ref em N H) as (mine & fm & myvel & A & B & C & D).
  exists mine, fm, myvel. split; [exact A|]. split; [exact B|]. cbv zeta. split; [exact C|].
  destruct D as [[-> D]|(-> & D1 & D2 & D3 & D4)].
  - split; [reflexivity|]. split; [reflexivity|]. intros -> Ny. destruct D as [D|D]; [discriminate|contradiction].
  - split; [discriminate|]. split; [contradiction|]. auto.
Qed.

(** Never backwards, never above the nominal speed, never faster than a vehicle
    ahead that is too close (or 0). *)
Lemma C37_bounds_pf : forall (X F : Type) (K : kin X) sp me (l : list (player * (X * F))) ref em,
  0 <= nominal_speed sp -> NoDup (map fst l) -> get_speed_ref K sp me (Some l) = Ok (ref, em) ->
  0 <= ref /\ ref <= nominal_speed sp /\
  (forall mine fm myvel r v, aget Nat.eqb l me = Some (mine, fm) -> vx_of K mine = Some myvel ->
     other_agent K me l mine r v -> too_close_ahead sp myvel r v -> ref <= v \/ ref = 0).
Proof.
  intros X F K sp me l ref em P N H. destruct (speed_ref_spec K sp me l ref em N H) as (mine & fm & myvel & A & B & C & D).
  assert (R : 0 <= ref /\ ref <= nominal_speed sp).
  { destruct D as [[-> _]|(_ & _ & D1 & _ & [->|(r & v & _ & _ & ->)])]; [split; [apply Qcle_refl|exact P]|split; [exact P|exact D1]|].
    split; [apply follow_range|exact D1]. }
  split; [exact (proj1 R)|]. split; [exact (proj2 R)|]. intros mine' fm' myvel' r v A' B' O T.
  assert (mine' = mine) as -> by congruence. assert (myvel' = myvel) as -> by congruence.
  destruct D as [[-> _]|(_ & _ & _ & D & _)]; [right; reflexivity|].
  pose proof (D r v O T) as D'. destruct (follow_range myvel v) as [F1 [F2|F2]]; [left; qlra|right; destruct R; qlra].
Qed.

(** More agents never make it faster, and never clear an emergency; in
    particular the order of the observations is irrelevant. *)
Lemma C37_more_agents_never_faster_pf : forall (X F : Type) (K : kin X) sp me (l l' : list (player * (X * F))) ref em ref' em',
  0 <= nominal_speed sp -> NoDup (map fst l) -> NoDup (map fst l') -> incl l l' ->
  get_speed_ref K sp me (Some l) = Ok (ref, em) -> get_speed_ref K sp me (Some l') = Ok (ref', em') ->
  ref' <= ref /\ (em = true -> em' = true).
Proof.
  intros X F K sp me l l' ref em ref' em' P N N' I H H'.
  destruct (C37_bounds_pf X F K sp me l ref em P N H) as (R0 & R1 & _).
  destruct (C37_bounds_pf X F K sp me l' ref' em' P N' H') as (R0' & R1' & _).
  destruct (speed_ref_spec K sp me l ref em N H) as (mine & fm & myvel & A & B & C & D).
  destruct (speed_ref_spec K sp me l' ref' em' N' H') as (mine' & fm' & myvel' & A' & B' & C' & D').
  assert (Em : (mine', fm') = (mine, fm)).
  { assert (In (me, (mine, fm)) l). { clear -A. induction l as [|[k w] r IH]; [discriminate|]. rewrite dget_cons in A.
      destruct (Nat.eqb_spec k me) as [->|]; [injection A as ->; left; reflexivity|right; auto]. }
    apply I in H0. clear -H0 A' N'. induction l' as [|[k w] r IH]; [contradiction|]. rewrite dget_cons in A'.
    cbn [map fst] in N'. inversion N' as [|? ? N1 N2]; subst. destruct H0 as [[= -> ->]|H0].
    - rewrite Nat.eqb_refl in A'. congruence.
    - destruct (Nat.eqb_spec k me) as [->|]; [exfalso; apply N1; apply (in_map fst) in H0; exact H0|auto]. }
  injection Em as -> ->. assert (myvel' = myvel) as -> by congruence.
  assert (O : forall r v, other_agent K me l mine r v -> other_agent K me l' mine r v).
  { intros r v (p & x & f & Hin & Q). exists p, x, f. split; [apply I; exact Hin|exact Q]. }
  split.
  - destruct D' as [[-> _]|(E' & NY' & D1 & D2 & _)]; [exact R0|].
    destruct D as [[-> D]|(_ & _ & _ & _ & [->|(r & v & O1 & T & ->)])].
    + exfalso. destruct D as [D|(r & v & O1 & Y)]; [|apply NY'; exists r, v; auto].
      apply C in D as (r & v & O1 & G). assert (em' = true) by (apply C'; exists r, v; auto). congruence.
    + exact D1.
    + apply (D2 r v); auto.
  - intro G. apply C in G as (r & v & O1 & G). apply C'. exists r, v. auto.
Qed.

Lemma C37_order_irrelevant_pf : forall (X F : Type) (K : kin X) sp me (l l' : list (player * (X * F))) ref em ref' em',
  0 <= nominal_speed sp -> NoDup (map fst l) -> Permutation l l' ->
  get_speed_ref K sp me (Some l) = Ok (ref, em) -> get_speed_ref K sp me (Some l') = Ok (ref', em') -> ref' = ref /\ em' = em.
Proof.
  intros X F K sp me l l' ref em ref' em' P N Q H H'.
  assert (N' : NoDup (map fst l')) by (eapply Permutation_NoDup; [apply Permutation_map; exact Q|exact N]).
  destruct (C37_more_agents_never_faster_pf X F K sp me l l' ref em ref' em' P N N' (fun x => Permutation_in x Q) H H') as [A1 A2].
  destruct (C37_more_agents_never_faster_pf X F K sp me l' l ref' em' ref em P N' N (fun x => Permutation_in x (Permutation_sym Q)) H' H) as [B1 B2].
  split; [apply Qcle_antisym; assumption|]. destruct em, em'; [reflexivity|exact (A2 eq_refl)|discriminate (B2 eq_refl)|reflexivity].
Qed.

(** Asking before any observation is an error. *)
Lemma C37_needs_observations_pf : forall (X F : Type) (K : kin X) sp me,
  get_speed_ref (F := F) K sp me None = Err PyTypeError.
Proof. reflexivity. Qed.

(** For every vehicle and every history of use, the steering-rate command is
    inside the steering-rate limit and the steering reference inside the
    steering limit. *)
Lemma C39_steering_rate_in_limits_pf : forall vp c0 h c outs, steer_controller vp = Ok c0 -> after (pid_p c0) h c outs ->
  Forall (fun y => - vp_ddelta_max vp <= y /\ y <= vp_ddelta_max vp) outs /\
  - vp_delta_max vp <= reference c /\ reference c <= vp_delta_max vp.
Proof.
  intros vp c0 h c outs H A. unfold steer_controller in H. destruct (pid_param_new _) as [p|] eqn:E; [|discriminate]. injection H as <-.
  pose proof E as E0. apply pid_param_new_ok in E0 as (-> & E1 & E2 & E3).
  cbn [pid_p pid_new] in A. split; [apply (C36_limits_pf _ _ _ _ _ E A)|].
  destruct (C36_reference_saturated_pf _ _ _ _ _ E A) as (S & Z & _). cbn [setpoint outlim antiwindup fst snd] in *.
  destruct (last_refer h None) as [r|]; [apply (S r eq_refl)|]. rewrite (Z eq_refl). split; qlra.
Qed.

Lemma C39_speed_command_in_limits_pf : forall vp c0 h c outs, speed_controller vp = Ok c0 -> after (pid_p c0) h c outs ->
  Forall (fun y => vp_acc_lo vp <= y /\ y <= vp_acc_hi vp) outs /\
  (last_refer h None <> None -> vp_vx_lo vp <= reference c /\ reference c <= vp_vx_hi vp).
Proof.
  intros vp c0 h c outs H A. unfold speed_controller in H. destruct (pid_param_new _) as [p|] eqn:E; [|discriminate]. injection H as <-.
  pose proof E as E0. apply pid_param_new_ok in E0 as (-> & E1 & E2 & E3).
  cbn [pid_p pid_new] in A. split; [apply (C36_limits_pf _ _ _ _ _ E A)|].
  destruct (C36_reference_saturated_pf _ _ _ _ _ E A) as (S & Z & _).
  intro N. destruct (last_refer h None) as [r|]; [apply (S r eq_refl)|contradiction].
Qed.

(** Every vehicle that satisfies its own constructor's checks gets controllers. *)
Lemma C39_controllers_exist_pf : forall vp, vparams_ok vp = true ->
  (exists c, steer_controller vp = Ok c) /\ (exists c, speed_controller vp = Ok c).
Proof.
  intros vp H. unfold vparams_ok in H. rewrite !andb_true_iff, !qltb_lt in H. destruct H as [[[A B] C] D].
  unfold steer_controller, speed_controller. split.
  - destruct (pid_param_new _) as [p|] eqn:E; [eauto|]. exfalso.
    match type of E with pid_param_new ?p = _ => assert (Z : pid_param_new p = Ok p); [|congruence] end.
    apply pid_param_new_ok. cbn [antiwindup setpoint outlim fst snd]. split; [reflexivity|]. split; [reflexivity|]. split; qlra.
  - destruct (pid_param_new _) as [p|] eqn:E; [eauto|]. exfalso.
    match type of E with pid_param_new ?p = _ => assert (Z : pid_param_new p = Ok p); [|congruence] end.
    apply pid_param_new_ok. cbn [antiwindup setpoint outlim fst snd]. split; [reflexivity|]. split; [reflexivity|]. split; assumption.
Qed.
