(** The time limits only cut a simulation short. *)
From Coq Require Import QArith Qcanon ZArith List Bool Arith Lia.
From Verif Require Import Base Num SeqModel SeqProofs SimulatorModel SimulatorSpec DictLemmas SimulatorProofs SimulatorProofs2 SimulatorProofs4 SimulatorProofs5 SimulatorProofs6 SimulatorProofs7 SimulatorWorld ApartMain LimitSpec LimitProofs.
Import ListNotations.
Open Scope Qc_scope.
(* BODY *)

(** ** C139  A longer time limit only extends a simulation *)

(** Raise max_sim_time, sim_time_after_collision or both.  As long as the simulation with the smaller limits is running, the other one is in the same state after as many iterations: the same models, agents, sensors, logs, reports and calls of external code. *)
Theorem C139_meanwhile : forall W (c : ctx W) limit aft m s0 k s, max_sim_time (g_param (c_cfg c)) <= limit -> after_collision (g_param (c_cfg c)) <= aft ->
  init_run c m = Ok s0 -> after s0 k s -> c_term (cx s) = false ->
  exists z0 z, init_run (with_limits limit aft c) m = Ok z0 /\ after z0 k z /\ cx z = with_limits limit aft (cx s) /\ sm z = sm s /\ ev z = ev s.
Proof.
  intros W c limit aft m s0 k s L1 L2 E H Ht. exists (lim limit aft s0), (lim limit aft s). split; [rewrite lim_init, E; reflexivity|].
  assert (L : looser limit aft s0) by (apply init_run_ok in E as (Q & _); unfold looser, param; rewrite Q; split; assumption).
  split; [apply (lim_after limit aft s0 L k s H); exact Ht|]. repeat split.
Qed.

Lemma loose_start W (c : ctx W) limit aft m s0 : max_sim_time (g_param (c_cfg c)) <= limit -> after_collision (g_param (c_cfg c)) <= aft -> init_run c m = Ok s0 -> looser limit aft s0.
Proof. intros L1 L2 E. apply init_run_ok in E as (Q & _). unfold looser, param. rewrite Q. split; assumption. Qed.

(** If both runs complete, the one with the larger limits went on where the other one stopped: each player's log of states, commands, extras and computation times is the log of the short run, followed by samples from the end of the short run on; so are the reports of collisions. *)
Theorem C139_goes_on : forall W (c : ctx W) limit aft m fuel fuel' s z, valid_ctx c -> unused m -> 0 < dt (g_param (c_cfg c)) ->
  max_sim_time (g_param (c_cfg c)) <= limit -> after_collision (g_param (c_cfg c)) <= aft ->
  run fuel m c = Some (Ok s) -> run fuel' m (with_limits limit aft c) = Some (Ok z) -> goes_on s z.
Proof.
  intros W c limit aft m fuel fuel' sf zf V U D L1 L2 Hs Hz. unfold run in Hs, Hz. rewrite lim_init in Hz. destruct (init_run c m) as [s0|] eqn:E0; [cbn [rm] in Hz|discriminate].
  assert (Sd : started c s0) by (split; [exact V|eauto]). pose proof (loose_start W c limit aft m s0 L1 L2 E0) as L.
  assert (Sz : started (with_limits limit aft c) (lim limit aft s0)) by (split; [exact (lim_valid limit aft c V)|exists m; split; [exact U|rewrite lim_init, E0; reflexivity]]).
  assert (Dz : 0 < dt (g_param (c_cfg (with_limits limit aft c)))) by exact D.
  destruct (loop fuel s0) as [[s|]|] eqn:El; [|discriminate|discriminate].
  destruct (loop fuel' (lim limit aft s0)) as [[z|]|] eqn:Ez; [|discriminate|discriminate].
  destruct (loop_after s0 fuel 0 s0 s (after_0 s0) El) as (k & A & Tm).
  destruct (loop_after _ fuel' 0 _ z (after_0 _) Ez) as (n & B & Tz).
  pose proof (started_facts _ _ _ _ Sd D A) as F. pose proof (started_facts _ _ _ _ Sz Dz B) as Fz.
  assert (Nm : NoDup (akeys (c_models (cx s)))) by (rewrite (fa_models _ _ _ _ F); apply V).
  assert (Nz : NoDup (akeys (c_models (cx z)))) by (rewrite (fa_models _ _ _ _ Fz); apply V).
  destruct (write_logs_ok s (fa_inv _ _ _ _ F) Nm) as (sf' & Wf & _ & Wsm & (lg & Wcx) & Wl). rewrite Wf in Hs. injection Hs as ->.
  destruct (write_logs_ok z (fa_inv _ _ _ _ Fz) Nz) as (zf' & Xf & _ & Xsm & (lgz & Xcx) & Xl). rewrite Xf in Hz. injection Hz as ->.
  assert (Core : exists z1 j, after (lim limit aft s0) j z1 /\ (j <= n)%nat /\ sm z1 = sm s /\ time z1 = time s /\
            exists more, c_reports (cx z1) = c_reports (cx s) ++ more /\ (reports_stamped W -> forall r, In r more -> r_time r = time s)).
  { inversion A as [E1|k' s' s'' A' Ht Hst E1]; subst.
    - exists (lim limit aft s), 0%nat. split; [constructor|]. split; [lia|]. split; [reflexivity|]. split; [reflexivity|]. exists []. split; [symmetry; apply app_nil_r|intros _ r []].
    - destruct (lim_after limit aft s0 L k' s' A') as [L' A2]. specialize (A2 Ht).
      assert (Ln : (S k' <= n)%nat).
      { destruct (le_lt_dec n k') as [Q|Q]; [exfalso|lia]. destruct (after_prefix _ _ _ A2 n Q) as (x & Ax). assert (x = z) by (eapply after_fun; eassumption). subst x.
        destruct (Nat.eq_dec n k') as [->|Nk]; [assert (z = lim limit aft s') by (eapply after_fun; eassumption); subst z; cbn in Tz; congruence|].
        rewrite (after_live _ _ _ A2 n z) in Tz; [discriminate|lia|exact B]. }
      destruct (after_prefix _ _ _ B (S k') Ln) as (z1 & B1). exists z1, (S k'). split; [exact B1|]. split; [exact Ln|].
      inversion B1 as [|k2 z' z'' B2 T2 St2]; subst. assert (z' = lim limit aft s') by (eapply after_fun; eassumption). subst z'.
      destruct (lim_step_last limit aft s' s z1 Hst Tm St2) as [K1 K2]. split; [exact K1|]. split; [exact K2|].
      pose proof (after_step _ _ _ _ _ Sz Dz B2 St2) as Rz. pose proof (after_step _ _ _ _ _ Sd D A' Hst) as R.
      destruct (reports_step _ _ Rz) as (more & M1 & M2). exists more. rewrite M1. pose proof (sr_coll _ _ R) as Q. rewrite Tm in Q. destruct Q as (-> & _). split; [reflexivity|].
      intros Stp r Hr. rewrite (M2 Stp r Hr). exact K2. }
  destruct Core as (z1 & j & A1 & Lj & Sm & Tt & more & M1 & M2). pose proof (after_split _ _ _ B j z1 Lj A1) as B'.
  destruct (grown_after _ _ _ _ Sz Dz A1 _ _ B') as (G1 & G2 & more2 & G3 & G4). rewrite Tt in G1, G2, G4.
  unfold goes_on. unfold time. rewrite Wcx, Xcx. cbn [set_log c_time c_models c_reports c_log]. split; [exact G1|]. split.
  - intros p Kp. destruct (Wl p Kp) as (l & N1 & P1 & P2 & P3 & P4 & _).
    destruct (Xl p) as (l' & N1' & P1' & P2' & P3' & P4' & _); [rewrite (fa_models _ _ _ _ Fz); cbn [with_limits c_models]; rewrite <- (fa_models _ _ _ _ F); exact Kp|].
    rewrite Wcx in N1. rewrite Xcx in N1'. exists l, l'. split; [exact N1|]. split; [exact N1'|]. unfold log_continued. rewrite P1, P2, P3, P4, P1', P2', P3', P4'.
    pose proof (G2 p) as G. unfold grown, states_log, commands_log, extra_log, info_log, logger_of in *. rewrite Sm in G. exact G.
  - exists (more ++ more2). split; [rewrite G3, M1, app_assoc; reflexivity|]. intros St r Hr. apply in_app_iff in Hr as [Hr|Hr]; [rewrite (M2 St r Hr); apply Qcle_refl|exact (G4 St r Hr)].
Qed.

(** An exception of the short run is an exception of the long run, after as many iterations. *)
Theorem C139_raises : forall W (c : ctx W) limit aft m fuel e, max_sim_time (g_param (c_cfg c)) <= limit -> after_collision (g_param (c_cfg c)) <= aft ->
  valid_ctx c -> unused m -> 0 < dt (g_param (c_cfg c)) ->
  run fuel m c = Some (Err e) -> run fuel m (with_limits limit aft c) = Some (Err e).
Proof.
  intros W c limit aft m fuel e L1 L2 V U D H. unfold run in *. rewrite lim_init. destruct (init_run c m) as [s0|] eqn:E0; cbn [rm]; [|exact H].
  pose proof (loose_start W c limit aft m s0 L1 L2 E0) as L. assert (Sd : started c s0) by (split; [exact V|eauto]).
  destruct (loop fuel s0) as [[s|e1]|] eqn:El; [| |discriminate].
  - destruct (loop_after s0 fuel 0 s0 s (after_0 s0) El) as (k & A & Tm). pose proof (started_facts _ _ _ _ Sd D A) as F.
    assert (Nm : NoDup (akeys (c_models (cx s)))) by (rewrite (fa_models _ _ _ _ F); apply V).
    destruct (write_logs_ok s (fa_inv _ _ _ _ F) Nm) as (sf' & Wf & _). rewrite Wf in H. discriminate.
  - rewrite (loop_err limit aft fuel s0 e1 L El). exact H.
Qed.

(** A run that stopped within its limits, because nobody is left or all missions are accomplished, does not depend on them: with larger limits it ends after as many iterations in the same state. *)
Theorem C139_unaffected : forall W (c : ctx W) limit aft m fuel s, max_sim_time (g_param (c_cfg c)) <= limit -> after_collision (g_param (c_cfg c)) <= aft ->
  run fuel m c = Some (Ok s) -> within_limits s ->
  exists z, run fuel m (with_limits limit aft c) = Some (Ok z) /\ cx z = with_limits limit aft (cx s) /\ sm z = sm s /\ ev z = ev s.
Proof.
  intros W c limit aft m fuel s L1 L2 H Wl. unfold run in *. rewrite lim_init. destruct (init_run c m) as [s0|] eqn:E0; cbn [rm]; [|discriminate].
  pose proof (loose_start W c limit aft m s0 L1 L2 E0) as L. destruct (loop fuel s0) as [[s1|e1]|] eqn:El; [|discriminate|discriminate]. injection H as H.
  assert (K : forall l (x y : st W), rfold write_log x l = Ok y -> c_cfg (cx y) = c_cfg (cx x) /\ c_time (cx y) = c_time (cx x) /\ c_first (cx y) = c_first (cx x)).
  { clear. induction l as [|p l IH]; cbn [rfold]; intros x y H; [injection H as <-; auto|]. destruct (write_log x p) as [x1|] eqn:E; [|discriminate].
    unfold write_log in E. destruct (dgetE _ p); [|discriminate]. destruct (logger_as_sequence _); [|discriminate]. injection E as <-. apply IH in H. exact H. }
  assert (W1 : within_limits s1) by (destruct (K _ _ _ H) as (K1 & K2 & K3); unfold within_limits, time, param in *; rewrite <- K1, <- K2, <- K3; exact Wl).
  rewrite (loop_within limit aft fuel s0 s1 L El W1), lim_write, H. exists (lim limit aft s). repeat split.
Qed.

Definition ended {W : world} (r : option (result (st W))) (c : ctx W) : st W := match r with Some (Ok s) => s | _ => mkSt c new_simulator [] end.

(** Three players on a line, limits 1 and 3: the long run extends the logs of players 2 and 3 and adds reports. *)
Example C139_goes_on_ex : let c := with_limits 1 (qz 10) ctx1 in let s := ended (run 20 new_simulator c) c in let z := ended (run 20 new_simulator ctx1) c in
  valid_ctx c /\ run 20 new_simulator c = Some (Ok s) /\ run 20 new_simulator (with_limits (qz 3) (qz 10) c) = Some (Ok z) /\ goes_on s z /\
  qs_eqb (map fst (states_log s 3%nat)) [0; 1 # 2; 1]%Q = true /\ qs_eqb (map fst (states_log z 3%nat)) [0; 1 # 2; 1; 3 # 2; 2; 5 # 2; 3]%Q = true /\
  Nat.ltb (length (c_reports (cx s))) (length (c_reports (cx z))) = true.
Proof.
  cbv zeta. set (c := with_limits 1 (qz 10) ctx1).
  assert (V : valid_ctx c) by exact (proj1 started1).
  assert (R1 : run 20 new_simulator c = Some (Ok (ended (run 20 new_simulator c) c))).
  { assert (H : match run 20 new_simulator c with Some (Ok _) => true | _ => false end = true) by (vm_compute; reflexivity). destruct (run 20 new_simulator c) as [[s|]|]; [reflexivity|discriminate|discriminate]. }
  assert (R2 : run 20 new_simulator (with_limits (qz 3) (qz 10) c) = Some (Ok (ended (run 20 new_simulator ctx1) c))).
  { change (with_limits (qz 3) (qz 10) c) with ctx1. assert (H : match run 20 new_simulator ctx1 with Some (Ok _) => true | _ => false end = true) by (vm_compute; reflexivity). destruct (run 20 new_simulator ctx1) as [[s|]|]; [reflexivity|discriminate|discriminate]. }
  split; [exact V|]. split; [exact R1|]. split; [exact R2|].
  split; [apply (C139_goes_on line c (qz 3) (qz 10) new_simulator 20 20 _ _ V eq_refl); [vm_compute; reflexivity|vm_compute; discriminate|vm_compute; discriminate|exact R1|exact R2]|].
  split; [vm_compute; reflexivity|]. split; vm_compute; reflexivity.
Qed.

(** A mission accomplished before either limit. *)
Example C139_unaffected_ex : let c := @mkCtx line (@mkConfig line [] (mkParam (qf 1 2) (qz 1) (qz 3) (qz 10)) [(8%nat, qz 1)] true 0%nat) [(8%nat, qz 0)] [(8%nat, qz 1)] [] [] 0 false [] None in
  let s := ended (run 20 new_simulator c) c in run 20 new_simulator c = Some (Ok s) /\ within_limits s /\ exists z, run 20 new_simulator (with_limits (qz 30) (qz 10) c) = Some (Ok z) /\ cx z = with_limits (qz 30) (qz 10) (cx s).
Proof.
  cbv zeta. set (c := @mkCtx line _ _ _ _ _ _ _ _ _).
  assert (R1 : run 20 new_simulator c = Some (Ok (ended (run 20 new_simulator c) c))).
  { assert (H : match run 20 new_simulator c with Some (Ok _) => true | _ => false end = true) by (vm_compute; reflexivity). destruct (run 20 new_simulator c) as [[s|]|]; [reflexivity|discriminate|discriminate]. }
  assert (Wl : within_limits (ended (run 20 new_simulator c) c)).
  { split; [vm_compute; discriminate|]. assert (H : c_first (cx (ended (run 20 new_simulator c) c)) = None) by (vm_compute; reflexivity). intros f Hf. rewrite H in Hf. discriminate Hf. }
  split; [exact R1|]. split; [exact Wl|].
  destruct (C139_unaffected line c (qz 30) (qz 10) new_simulator 20 _ ltac:(vm_compute; discriminate) ltac:(vm_compute; discriminate) R1 Wl) as (z & Z1 & Z2 & _). exists z. split; assumption.
Qed.
