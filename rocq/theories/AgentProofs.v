(** Lemmas on agents. *)
From Coq Require Import QArith Qcanon ZArith List Bool Arith Lia Permutation Sorted.
From Verif Require Import Base Num SeqModel SeqSpec SeqProofs SeqProofs2 DictLemmas SimulatorModel VehState CtrlModel CtrlSpec CtrlProofs AgentModel AgentSpec.
Import ListNotations.
Open Scope Qc_scope.

Section LF.
Context {X F PP G Lane : Type} (env : lf_env X PP G Lane).
Notation agent := (lf_agent (PP := PP) (Lane := Lane)).

(** The parts of an agent that get_commands never changes. *)
Definition same_setup (a b : agent) : Prop :=
  a_lane b = a_lane a /\ a_sb b = a_sb a /\ a_pp b = a_pp a /\ a_path b = a_path a /\ a_name b = a_name a /\ a_lights b = a_lights a /\
  pid_p (a_speed b) = pid_p (a_speed a) /\ pid_p (a_steer b) = pid_p (a_steer a).

Lemma same_setup_refl a : same_setup a a.
Proof. unfold same_setup; auto 10. Qed.
Lemma same_setup_trans a b c : same_setup a b -> same_setup b c -> same_setup a c.
Proof.
  intros (A1 & A2 & A3 & A4 & A5 & A6 & A7 & A8) (B1 & B2 & B3 & B4 & B5 & B6 & B7 & B8). unfold same_setup. intuition congruence.
Qed.

Lemma lf_step a o a' c l : lf_get_commands env a o = Ok (a', (c, l)) ->
  same_setup a a' /\
  exists n x f r e vx delta dref, a_name a = Some n /\ dget (o_players o) n = Some (x, f) /\ lf_attr env x = Some (vx, delta) /\
    get_speed_ref (F := F) (lf_kin env) (a_sb a) n (Some (o_players o)) = Ok (r, e) /\
    a_emergency a' = e || a_emergency a /\
    a_pp_speed a' = (if e || a_emergency a then 0 else r) /\
    (exists along, lf_along env (a_lane a) x = Ok along /\ lf_steering env (a_pp a) (a_path a) x along (a_pp_speed a') = Ok dref) /\
    get_control (update_reference (update_measurement (a_speed a) vx) (a_pp_speed a')) (o_time o) = (a_speed a', vc_acc c) /\
    get_control (update_reference (update_measurement (a_steer a) delta) dref) (o_time o) = (a_steer a', vc_ddelta c) /\
    at_or_previous (a_lights a) (o_time o) = Ok l.
Proof.
  unfold lf_get_commands. intro H.
  destruct (a_name a) as [n|] eqn:En; [|discriminate].
  destruct (dgetE (o_players o) n) as [[x f]|] eqn:Ex; [|discriminate]. apply agetE_Ok in Ex.
  destruct (lf_attr env x) as [[vx delta]|] eqn:Ea; [|discriminate].
  destruct (lf_along env (a_lane a) x) as [along|] eqn:El; [|discriminate].
  destruct (get_speed_ref _ _ n _) as [[r e]|] eqn:Es; [|discriminate]. cbv zeta in H.
  destruct (get_control (update_reference (update_measurement (a_speed a) vx) _) (o_time o)) as [spd acc] eqn:Ec1.
  destruct (lf_steering _ _ _ _ _ _) as [dref|] eqn:Ed; [|discriminate].
  destruct (get_control (update_reference (update_measurement (a_steer a) delta) dref) (o_time o)) as [str dd] eqn:Ec2.
  destruct (at_or_previous _ _) as [l0|] eqn:Et; [|discriminate]. injection H as <- <- <-.
  assert (P1 : pid_p spd = pid_p (a_speed a)) by (unfold get_control in Ec1; injection Ec1 as <- _; reflexivity).
  assert (P2 : pid_p str = pid_p (a_steer a)) by (unfold get_control in Ec2; injection Ec2 as <- _; reflexivity).
  split; [unfold same_setup; cbn; auto 10|].
  exists n, x, f, r, e, vx, delta, dref. cbn [a_emergency a_pp_speed a_speed a_steer vc_acc vc_ddelta].
  split; [reflexivity|]. split; [exact Ex|]. split; [exact Ea|]. split; [exact Es|]. split; [reflexivity|]. split; [reflexivity|].
  split; [exists along; split; [exact El|exact Ed]|]. split; [exact Ec1|]. split; [exact Ec2|reflexivity].
Qed.

Lemma lf_run_setup a0 (os : list (simobs X F)) a cmds : lf_run env a0 os a cmds -> same_setup a0 a.
Proof.
  induction 1 as [|os a cmds o a' c H IH E]; [apply same_setup_refl|]. destruct c as [c l].
  eapply same_setup_trans; [exact IH|]. apply (lf_step _ _ _ _ _ E).
Qed.

Lemma control_reference c t c' y : get_control c t = (c', y) -> reference c' = reference c.
Proof. unfold get_control. intros [= <- _]. reflexivity. Qed.

(** The latch. *)
Lemma lf_latched a0 n (os : list (simobs X F)) a cmds : a_name a0 = Some n -> a_emergency a0 = false ->
  lf_run env a0 os a cmds ->
  (a_emergency a = true <-> exists o, In o os /\ detects_emergency env (a_sb a0) n o) /\
  (os <> [] -> a_emergency a = true -> a_pp_speed a = 0) /\
  (forall os' o, os = os' ++ [o] -> a_emergency a = false -> asks_speed env (a_sb a0) n o (a_pp_speed a)) /\
  (os <> [] -> reference (a_speed a) = qclip (a_pp_speed a) (fst (setpoint (pid_p (a_speed a0)))) (snd (setpoint (pid_p (a_speed a0))))).
Proof.
  intros Hn He H. induction H as [|os a cmds o a' c H IH E].
  - split; [|split; [|split]].
    + rewrite He. split; [discriminate|intros (o & [] & _)].
    + intro C; contradiction.
    + intros os' o C. destruct os'; discriminate.
    + intro C; contradiction.
  - destruct IH as (I1 & _). pose proof (lf_run_setup _ _ _ _ H) as (_ & S1 & _ & _ & S2 & _ & S3 & _).
    destruct c as [c l]. destruct (lf_step _ _ _ _ _ E) as (_ & n' & x & f & r & e & vx & delta & dref & A1 & A2 & _ & A3 & A4 & A5 & _ & A6 & _).
    assert (n' = n) as -> by congruence. rewrite S1 in A3.
    split; [|split; [|split]].
    + rewrite A4. rewrite orb_true_iff, I1. split.
      * intros [->|(o' & Ho & D)]; [exists o; split; [apply in_or_app; right; left; reflexivity|exists r; exact A3]|exists o'; split; [apply in_or_app; left; exact Ho|exact D]].
      * intros (o' & Ho & D). apply in_app_or in Ho as [Ho|[<-|[]]]; [right; exists o'; auto|left]. destruct D as [r' D]. congruence.
    + intros _ Ht. rewrite A5, <- A4, Ht. reflexivity.
    + intros os' o' Eq Hf. apply app_inj_tail in Eq as [_ <-]. rewrite A5, <- A4, Hf. exists e. exact A3.
    + intros _. rewrite (control_reference _ _ _ _ A6). cbn [update_reference update_measurement reference pid_p]. rewrite S3. reflexivity.
Qed.

Lemma lf_limits a0 (os : list (simobs X F)) a cmds : lf_run env a0 os a cmds ->
  fst (outlim (pid_p (a_speed a0))) <= snd (outlim (pid_p (a_speed a0))) ->
  fst (outlim (pid_p (a_steer a0))) <= snd (outlim (pid_p (a_steer a0))) ->
  Forall (fun cl => within (outlim (pid_p (a_speed a0))) (vc_acc (fst cl)) /\ within (outlim (pid_p (a_steer a0))) (vc_ddelta (fst cl))) cmds.
Proof.
  intros H L1 L2. induction H as [|os a cmds o a' c H IH E]; [constructor|]. apply Forall_app. split; [exact IH|].
  constructor; [|constructor]. pose proof (lf_run_setup _ _ _ _ H) as (_ & _ & _ & _ & _ & _ & S3 & S4).
  destruct c as [c l]. destruct (lf_step _ _ _ _ _ E) as (_ & n' & x & f & r & e & vx & delta & dref & _ & _ & _ & _ & _ & _ & _ & A6 & A7 & _).
  cbn [fst]. unfold get_control in A6, A7. injection A6 as _ A6. injection A7 as _ A7.
  cbn [update_reference update_measurement pid_p] in A6, A7. rewrite S3 in A6. rewrite S4 in A7. rewrite <- A6, <- A7.
  split; apply clip_within; assumption.
Qed.

Lemma lf_new_inv order lane vp geo_ sb pp a : lf_new env order lane vp geo_ sb pp = Ok a ->
  vp_vx_lo vp < vp_vx_hi vp /\ vp_acc_lo vp < vp_acc_hi vp /\ 0 < vp_delta_max vp /\ 0 < vp_ddelta_max vp /\
  setpoint (pid_p (a_speed a)) = (vp_vx_lo vp, vp_vx_hi vp) /\ outlim (pid_p (a_speed a)) = (vp_acc_lo vp, vp_acc_hi vp) /\
  outlim (pid_p (a_steer a)) = (- vp_ddelta_max vp, vp_ddelta_max vp) /\ a_emergency a = false /\
  a_sb a = match sb with None => sb_default | Some b => b end /\ a_pp a = lf_pp_of_geo env geo_ /\ a_lane a = lane /\
  new_seq true [0; qz 2; qz 4; qz 6; qz 8] order = Ok (a_lights a).
Proof.
  unfold lf_new, speed_controller, steer_controller. intro H.
  destruct (pid_param_new _) as [p1|] eqn:E1; [|discriminate].
  destruct (pid_param_new (mkPP _ _ _ _ (- vp_delta_max vp, _) _)) as [p2|] eqn:E2; [|discriminate].
  destruct (new_seq _ _ _) as [ls|] eqn:E3; [|discriminate]. injection H as <-.
  apply pid_param_new_ok in E1 as (-> & _ & B1 & B2). apply pid_param_new_ok in E2 as (-> & _ & B3 & B4).
  cbn [antiwindup setpoint outlim fst snd a_speed a_steer pid_p pid_new a_emergency a_sb a_pp a_lane a_lights] in *.
  split; [exact B1|]. split; [exact B2|]. split; [qlra|]. split; [qlra|]. auto 10.
Qed.
End LF.
