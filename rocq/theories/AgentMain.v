(* Generated from tools/Agent.src by tools/gen_props.py. *)
(** Properties of the agents. *)
From Coq Require Import QArith Qcanon ZArith List Bool Arith Lia Permutation Sorted.
From Verif Require Import Base Num SeqModel SeqSpec SeqProofs SeqProofs2 DictLemmas SimulatorModel VehState CtrlModel CtrlSpec CtrlProofs AgentModel AgentSpec AgentProofs.
Import ListNotations.
Open Scope Qc_scope.

(** The open-loop agent answers with the latest planned command not later than
    the observation's time, whatever else is observed; it fails exactly before
    the plan starts (or when the plan is empty). *)
Lemma C34_plan_is_played_pf : forall (X F U : Type) (plan : seq U) (o : simobs X F), obtainable plan ->
  (forall u, np_get_commands plan o = Ok u <-> is_prev_sample plan (o_time o) u) /\
  (forall t0, nth_error (tss plan) 0 = Some t0 -> t0 <= o_time o -> exists u, np_get_commands plan o = Ok u) /\
  (forall t0, nth_error (tss plan) 0 = Some t0 -> o_time o < t0 -> np_get_commands plan o = Err UndefinedAtTime) /\
  (tss plan = [] -> np_get_commands plan o = Err ZValueError).
Proof.
  intros X F U plan o H. unfold np_get_commands. apply obtainable_WF in H as W. pose proof (aop_spec plan (o_time o) W) as A.
  split; [intro u; apply aop_ok; exact W|].
  destruct (tss plan) as [|t0 ts]; cbn [nth_error] in *.
  - split; [discriminate|]. split; [discriminate|]. intros _. exact A.
  - split; [|split; [|discriminate]]; intros t1 [= <-] L.
    + apply qltb_ge in L. rewrite L in A. destruct A as (v & A & _). eauto.
    + apply qltb_lt in L. rewrite L in A. exact A.
Qed.

(** "Function from state to commands": the policy should be applied to the
    agent's own state.  It is not: it is called with the whole observation entry,
    so a policy that is defined on states fails. *)
Lemma C34_policy_applied_to_state_refuted_pf : exists (pi : policy_arg vstate unit -> result Qc) name (o : simobs vstate unit) x f u,
  aget Nat.eqb (o_players o) name = Some (x, f) /\ pi (ArgState x) = Ok u /\
  pa_get_commands (pa_init (mkPA pi None) name) o <> Ok u.
Proof.
  exists (fun a => match a with ArgState x => Ok (vs_vx x) | ArgObs _ _ => Err PyAttributeError end), 0%nat, (ex_free 0), ex_me, tt, (qz 10).
  split; [reflexivity|]. split; [reflexivity|]. discriminate.
Qed.

(** What it does: it applies the policy to its own observation entry, and
    nobody else's matters; it fails if it does not observe itself. *)
Lemma C34_policy_partial_pf : forall (X F U : Type) (a : policy_agent X F U) name (o : simobs X F),
  (forall x f, aget Nat.eqb (o_players o) name = Some (x, f) -> pa_get_commands (pa_init a name) o = pa_policy a (ArgObs x f)) /\
  (aget Nat.eqb (o_players o) name = None -> pa_get_commands (pa_init a name) o = Err PyKeyError).
Proof.
  intros X F U a name o. unfold pa_get_commands, pa_init, agetE. cbn [pa_name pa_policy].
  split; [intros x f ->; reflexivity|intros ->; reflexivity].
Qed.

(** From the first observation on which an emergency is detected, the speed
    asked of the pure pursuit controller is 0 after every request, and the
    reference of the speed controller is 0 (for vehicles whose speed range
    contains 0), whatever is observed later. *)
Lemma C35_emergency_latches_pf : forall (X F PP G Lane : Type) (env : lf_env X PP G Lane) order lane vp geo_ sb pp n a0 (os os' : list (simobs X F)) o a cmds,
  lf_started env order lane vp geo_ sb pp n a0 -> lf_run env a0 (os ++ o :: os') a cmds ->
  detects_emergency env (match sb with None => sb_default | Some b => b end) n o ->
  a_pp_speed a = 0 /\ (vp_vx_lo vp <= 0 -> 0 <= vp_vx_hi vp -> reference (a_speed a) = 0).
Proof.
  intros X F PP G Lane env order lane vp geo_ sb pp n a0 os os' o a cmds (b & Hb & ->) H D.
  apply lf_new_inv in Hb as (_ & _ & _ & _ & S & _ & _ & Em & Sb & _).
  destruct (lf_latched env (lf_init b n) n (os ++ o :: os') a cmds eq_refl Em H) as (A & B & _ & R).
  cbn [lf_init a_sb a_speed] in *. assert (NE : os ++ o :: os' <> []) by (intro C; destruct os; discriminate).
  assert (T : a_emergency a = true). { apply A. exists o. split; [apply in_or_app; right; left; reflexivity|rewrite Sb; exact D]. }
  split; [exact (B NE T)|]. intros L1 L2. rewrite (R NE), (B NE T), S. apply (clip_id (vp_vx_lo vp, vp_vx_hi vp)). split; assumption.
Qed.

(** As long as no emergency has been detected the speed asked for is the one of
    the speed behaviour on the latest observation. *)
Lemma C35_no_emergency_tracks_behaviour_pf : forall (X F PP G Lane : Type) (env : lf_env X PP G Lane) order lane vp geo_ sb pp n a0 (os : list (simobs X F)) o a cmds,
  lf_started env order lane vp geo_ sb pp n a0 -> lf_run env a0 (os ++ [o]) a cmds ->
  (forall o', In o' (os ++ [o]) -> ~ detects_emergency env (match sb with None => sb_default | Some b => b end) n o') ->
  asks_speed env (match sb with None => sb_default | Some b => b end) n o (a_pp_speed a).
Proof.
  intros X F PP G Lane env order lane vp geo_ sb pp n a0 os o a cmds (b & Hb & ->) H D.
  apply lf_new_inv in Hb as (_ & _ & _ & _ & S & _ & _ & Em & Sb & _).
  destruct (lf_latched env (lf_init b n) n (os ++ [o]) a cmds eq_refl Em H) as (A & _ & B & _).
  cbn [lf_init a_sb] in *. rewrite <- Sb in *. apply (B os o eq_refl). destruct (a_emergency a); [exfalso|reflexivity].
  destruct (proj1 A eq_refl) as (o' & Ho & Do). exact (D o' Ho Do).
Qed.

(** Every command ever issued is inside the vehicle's limits. *)
Lemma C35_commands_in_limits_pf : forall (X F PP G Lane : Type) (env : lf_env X PP G Lane) order lane vp geo_ sb pp n a0 (os : list (simobs X F)) a cmds,
  lf_started env order lane vp geo_ sb pp n a0 -> lf_run env a0 os a cmds ->
  Forall (fun cl => vp_acc_lo vp <= vc_acc (fst cl) /\ vc_acc (fst cl) <= vp_acc_hi vp /\
                    - vp_ddelta_max vp <= vc_ddelta (fst cl) /\ vc_ddelta (fst cl) <= vp_ddelta_max vp) cmds.
Proof.
  intros X F PP G Lane env order lane vp geo_ sb pp n a0 os a cmds (b & Hb & ->) H.
  apply lf_new_inv in Hb as (_ & L1 & _ & L2 & _ & S1 & S2 & _).
  pose proof (lf_limits env (lf_init b n) os a cmds H) as A. cbn [lf_init a_speed a_steer] in A. rewrite S1, S2 in A. cbn [fst snd] in A.
  assert (L3 : vp_acc_lo vp <= vp_acc_hi vp) by qlra. assert (L4 : - vp_ddelta_max vp <= vp_ddelta_max vp) by qlra.
  eapply Forall_impl; [|exact (A L3 L4)]. intros [c l] [[C1 C2] [C3 C4]]. cbn [fst snd] in *. auto.
Qed.

(** The commands should be a function of the inputs.  The lights are not: they
    follow the iteration order of a set of strings, which differs between runs of
    the interpreter. *)
Lemma C73_same_inputs_same_commands_refuted_pf : exists (env : lf_env vstate nat unit unit) order order' a1 a2 (o : simobs vstate unit) b1 c1 b2 c2,
  lights_order order /\ lights_order order' /\
  lf_started env order tt vp_car tt None None 0%nat a1 /\ lf_started env order' tt vp_car tt None None 0%nat a2 /\
  lf_get_commands env a1 o = Ok (b1, c1) /\ lf_get_commands env a2 o = Ok (b2, c2) /\ c1 <> c2.
Proof.
  exists ex_env, ex_order, ex_order2. eexists; eexists. exists (ex_free 0). eexists; eexists; eexists; eexists.
  split; [apply Permutation_refl|]. split.
  { unfold lights_order, ex_order2. change [Hazard; HeadLights; TurnLeft; TurnRight; NoLights] with ([Hazard] ++ [HeadLights; TurnLeft; TurnRight] ++ [NoLights]).
    change [NoLights; HeadLights; TurnLeft; TurnRight; Hazard] with ([NoLights] ++ [HeadLights; TurnLeft; TurnRight] ++ [Hazard]).
    rewrite Permutation_app_comm. rewrite <- app_assoc. rewrite (Permutation_app_comm _ ([NoLights] ++ [Hazard])). rewrite <- app_assoc.
    apply Permutation_app_head. apply Permutation_app_comm. }
  split; [eexists; split; reflexivity|]. split; [eexists; split; reflexivity|].
  split; [vm_compute; reflexivity|]. split; [vm_compute; reflexivity|]. discriminate.
Qed.

(** The driving commands do not depend on it. *)
Lemma C73_same_inputs_same_commands_partial_pf : forall (X F PP G Lane : Type) (env : lf_env X PP G Lane) order order' lane vp geo_ sb pp n a1 a2 (os : list (simobs X F)) b1 c1 b2 c2,
  lf_started env order lane vp geo_ sb pp n a1 -> lf_started env order' lane vp geo_ sb pp n a2 ->
  lf_run env a1 os b1 c1 -> lf_run env a2 os b2 c2 -> map fst c1 = map fst c2.
Proof.
  intros X F PP G Lane env order order' lane vp geo_ sb pp n a1 a2 os b1 c1 b2 c2 (x1 & N1 & ->) (x2 & N2 & ->) R1 R2.
  assert (S0 : a_lane x1 = a_lane x2 /\ a_speed x1 = a_speed x2 /\ a_sb x1 = a_sb x2 /\ a_steer x1 = a_steer x2 /\ a_pp x1 = a_pp x2 /\ a_emergency x1 = a_emergency x2).
  { unfold lf_new in N1, N2. destruct (speed_controller vp); [|discriminate]. destruct (steer_controller vp); [|discriminate].
    destruct (new_seq _ _ order); [|discriminate]. destruct (new_seq _ _ order'); [|discriminate]. injection N1 as <-. injection N2 as <-. cbn. auto 10. }
  enough (E : map fst c1 = map fst c2 /\ a_lane b1 = a_lane b2 /\ a_speed b1 = a_speed b2 /\ a_sb b1 = a_sb b2 /\ a_steer b1 = a_steer b2 /\ a_pp b1 = a_pp b2 /\
    a_path b1 = a_path b2 /\ a_name b1 = a_name b2 /\ a_emergency b1 = a_emergency b2) by (destruct E as [E _]; exact E).
  clear N1 N2. revert b2 c2 R2. induction R1 as [|os b1 c1 o b1' d1 R1 IH E1]; intros b2 c2 R2.
  - inversion R2 as [|os2 ? ? ? ? ? ? ? Eq]; subst; [|destruct os2; discriminate]. cbn. destruct S0 as (A1 & A2 & A3 & A4 & A5 & A6).
    rewrite A1. auto 10.
  - inversion R2 as [Eq|os2 b2' c2' o2 ? d2 R2' E2 Eq]; [destruct os; discriminate|]. subst.
    apply app_inj_tail in Eq as [-> ->]. destruct (IH _ _ R2') as (I0 & I1 & I2 & I3 & I4 & I5 & I6 & I7 & I8).
    destruct d1 as [d1 l1], d2 as [d2 l2].
    destruct (lf_step _ _ _ _ _ _ E1) as ((S1 & S2 & S3 & S4 & S5 & _) & n1 & y1 & f1 & r1 & e1 & v1 & de1 & dr1 & P1 & P2 & P3 & P4 & P5 & P6 & (al1 & P7 & P8) & P9 & P10 & _).
    destruct (lf_step _ _ _ _ _ _ E2) as ((T1 & T2 & T3 & T4 & T5 & _) & n2 & y2 & f2 & r2 & e2 & v2 & de2 & dr2 & Q1 & Q2 & Q3 & Q4 & Q5 & Q6 & (al2 & Q7 & Q8) & Q9 & Q10 & _).
    assert (n2 = n1) as -> by congruence. assert (Z : (y2, f2) = (y1, f1)) by congruence. injection Z as -> ->.
    assert (Z : (v2, de2) = (v1, de1)) by congruence. injection Z as -> ->. rewrite I3 in P4.
    assert (Z : (r2, e2) = (r1, e1)) by congruence. injection Z as -> ->.
    assert (W1 : a_emergency b1' = a_emergency b2) by congruence. assert (W2 : a_pp_speed b1' = a_pp_speed b2) by (rewrite P6, Q6, I8; reflexivity).
    assert (al2 = al1) as -> by congruence. assert (dr2 = dr1) as -> by congruence.
    assert (Z : (a_speed b2, vc_acc d2) = (a_speed b1', vc_acc d1)) by congruence. injection Z as Z1 Z2.
    assert (Z : (a_steer b2, vc_ddelta d2) = (a_steer b1', vc_ddelta d1)) by congruence. injection Z as Z3 Z4.
    rewrite !map_app. cbn [map fst]. split; [f_equal; [exact I0|]; f_equal; destruct d1, d2; cbn in *; congruence|].
    intuition congruence.
Qed.

(** The controller objects given to the constructor should be the ones used.
    The speed behaviour is ... *)
Lemma C74_given_behaviour_used_partial_pf : forall (X PP G Lane : Type) (env : lf_env X PP G Lane) order lane vp geo_ sb pp a,
  lf_new env order lane vp geo_ (Some sb) pp = Ok a -> a_sb a = sb.
Proof. intros X PP G Lane env order lane vp geo_ sb pp a H. apply lf_new_inv in H. tauto. Qed.

(** ... but a given pure pursuit controller is ignored. *)
Lemma C74_given_pursuit_used_refuted_pf : exists (env : lf_env vstate nat unit unit) pp a,
  lf_new env ex_order tt vp_car tt None (Some pp) = Ok a /\ a_pp a <> pp /\
  forall (X PP G Lane : Type) (env : lf_env X PP G Lane) order lane vp geo_ sb pp pp',
    lf_new env order lane vp geo_ sb pp = lf_new env order lane vp geo_ sb pp'.
Proof. exists ex_env, 3%nat. eexists. split; [reflexivity|]. split; [discriminate|]. reflexivity. Qed.
