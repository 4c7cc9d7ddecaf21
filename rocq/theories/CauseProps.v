(* Generated from tools/Cause.src by tools/gen_props.py. *)
(** What drives the agents and sensors of a simulation. *)
From Coq Require Import QArith Qcanon ZArith List Bool Arith Lia Sorted.
From Verif Require Import Base Num SeqModel SeqSpec VehState CtrlModel CtrlSpec AgentModel AgentSpec AgentMain PerceptionModel PerceptionSpec PerceptionMain PerceptionExamples SimulatorModel SimulatorSpec DictLemmas SimulatorProofs SimulatorProofs2 SimulatorProofs4 SimulatorProofs5 SimulatorProofs7 SimulatorWorld CauseSpec CauseProofs.
Import ListNotations.
Open Scope Qc_scope.
From Verif Require Import CauseMain.

(** ** C134  Agents and sensors only know what they are given *)

(** At every point of every simulation the agent of a player is the object one gets by initialising the agent of the context and showing it, on its own, the observations delivered to it so far; its answers are what is logged, with the times of the requests.  Nothing else of the simulation reaches it. *)
Theorem C134_agents : forall W (c : ctx W) s0 k s p, started c s0 -> 0 < dt (g_param (c_cfg c)) -> after s0 k s -> In p (akeys (c_models c)) ->
  exists a1 a us, initialised c p a1 /\ talks a1 (map ask_given (asks s p)) a us /\
    (active s p -> dget (c_players (cx s)) p = Some a) /\
    commands_log s p = combine (map ask_t (asks s p)) (map fst us) /\
    extra_log s p = extras (combine (map ask_t (asks s p)) us).
Proof. exact C134_agents_pf. Qed.
Print Assumptions C134_agents.

(** Likewise the sensor of a player is the sensor of the context after the full observations shown to it so far, and what it let through is what the agent was given. *)
Theorem C134_sensors : forall W (c : ctx W) s0 k s p, started c s0 -> 0 < dt (g_param (c_cfg c)) -> after s0 k s -> In p (akeys (c_models c)) ->
  (forall f0, get_sensor c p = Ok f0 -> exists f, get_sensor (cx s) p = Ok f /\
     watches (g_scen (c_cfg c)) p f0 (map ask_seen (asks s p)) f (map ask_given (asks s p))) /\
  (forall e, get_sensor c p = Err e -> asks s p = []).
Proof. exact C134_sensors_pf. Qed.
Print Assumptions C134_sensors.

(** No look-ahead and no side channel: take two simulations, with any other players, obstacles, scenarios and parameters, in which the agent of a player starts the same.  As long as it is given the same observations it gives the same commands. *)
Theorem C134_no_look_ahead : forall W (c d : ctx W) s0 z0 k j s z p q n a, started c s0 -> started d z0 -> 0 < dt (g_param (c_cfg c)) -> 0 < dt (g_param (c_cfg d)) ->
  after s0 k s -> after z0 j z -> In p (akeys (c_models c)) -> In q (akeys (c_models d)) ->
  initialised c p a -> initialised d q a ->
  firstn n (map ask_given (asks s p)) = firstn n (map ask_given (asks z q)) ->
  firstn n (map ask_cmd (asks s p)) = firstn n (map ask_cmd (asks z q)).
Proof. exact C134_no_look_ahead_pf. Qed.
Print Assumptions C134_no_look_ahead.

Example C134_ex : exists s0 s, started ctx1 s0 /\ after s0 3 s /\ In 1%nat (akeys (c_models ctx1)) /\ asks s 1%nat <> [] /\ (exists a, initialised ctx1 1%nat a) /\ exists f, get_sensor ctx1 1%nat = Ok f.
Proof.
  exists start1, (nth_st start1 3). split; [apply started1|]. split; [apply after1; lia|]. split; [left; reflexivity|]. split; [|split; [exists (qz 1); unfold initialised; exists (qz 1), (qz 0); split; [reflexivity|split; reflexivity]|exists tt; reflexivity]].
  intro H. apply (f_equal (@length _)) in H. vm_compute in H. discriminate H.
Qed.

(** An NPAgent plays its plan: each logged command is the plan's command at the time of the observation it was given, and with the default sensors (or any sensor that passes the observation on) this is the time of the log entry. *)
Theorem C134_open_loop : forall W (c : ctx W) emb s0 k s p plan, open_loop W emb -> obtainable plan -> started c s0 -> 0 < dt (g_param (c_cfg c)) -> after s0 k s ->
  dget (c_players c) p = Some (emb plan) ->
  (forall b, In b (asks s p) -> is_prev_sample plan (o_time (ask_given b)) (ask_cmd b)) /\
  ((forall f0 f sc o, get_sensor c p = Ok f0 -> sense W f0 sc o p = Ok (f, o) /\ f = f0) ->
   forall t u, In (t, u) (commands_log s p) -> is_prev_sample plan t u).
Proof. exact C134_open_loop_pf. Qed.
Print Assumptions C134_open_loop.

(** A player driven by the lane following agent only ever logs commands within the limits of its vehicle. *)
Theorem C134_lane_follower_limits : forall W (c : ctx W) PP G Lane (env : lf_env (w_X W) PP G Lane) emb cmd s0 k s p order lane vp geo_ sb pp a0,
  lane_following W env emb cmd -> started c s0 -> 0 < dt (g_param (c_cfg c)) -> after s0 k s ->
  lf_new env order lane vp geo_ sb pp = Ok a0 -> dget (c_players c) p = Some (emb a0) ->
  forall t u, In (t, u) (commands_log s p) -> exists v l, u = cmd (v, l) /\
    vp_acc_lo vp <= vc_acc v <= vp_acc_hi vp /\ - vp_ddelta_max vp <= vc_ddelta v <= vp_ddelta_max vp.
Proof. exact C134_lane_follower_limits_pf. Qed.
Print Assumptions C134_lane_follower_limits.

(** From the first emergency in what it is shown, the lane following agent of a simulation keeps a zero speed reference, whatever it is shown later. *)
Theorem C134_lane_follower_emergency : forall W (c : ctx W) PP G Lane (env : lf_env (w_X W) PP G Lane) emb cmd s0 k s p order lane vp geo_ sb pp a0 b,
  lane_following W env emb cmd -> started c s0 -> 0 < dt (g_param (c_cfg c)) -> after s0 k s ->
  lf_new env order lane vp geo_ sb pp = Ok a0 -> dget (c_players c) p = Some (emb a0) ->
  In b (asks s p) -> detects_emergency env (match sb with None => sb_default | Some x => x end) p (ask_given b) -> active s p ->
  exists a, dget (c_players (cx s)) p = Some (emb a) /\ a_pp_speed a = 0 /\ (vp_vx_lo vp <= 0 -> 0 <= vp_vx_hi vp -> reference (a_speed a) = 0).
Proof. exact C134_lane_follower_emergency_pf. Qed.
Print Assumptions C134_lane_follower_emergency.

(** With a DelayedObsFilter of latency L around the identity filter, what a player is shown at a request is everybody's true state at the time of its first request within the last L, and never anything newer than the present. *)
Theorem C134_delayed : forall W (c : ctx W) shapes L emb s0 k s p b, delay_sensor W shapes L emb -> 0 <= L -> started c s0 -> 0 < dt (g_param (c_cfg c)) -> after s0 k s ->
  In p (akeys (c_models c)) -> get_sensor c p = Ok (emb (mkDelayed tt [])) -> In b (asks s p) ->
  exists r i si, In r (asks s p) /\ ask_t b - L <= ask_t r <= ask_t b /\ after s0 i si /\ time si = ask_t r /\
    (forall q, dget (o_players (ask_given b)) q = if activeb si q then option_map (fun m => (get_state W m, footprint W m)) (model_of si q) else None) /\
    o_time (ask_given b) = ask_t r + L /\
    (forall e, In e (asks s p) -> ask_t e < ask_t r -> ask_t e < ask_t b - L).
Proof. exact C134_delayed_pf. Qed.
Print Assumptions C134_delayed.

(** With a FovObsFilter a player is always shown itself, at the present time, and whoever else it is shown is still in the simulation and in the state shown at that time. *)
Theorem C134_fov_truth : forall W (c : ctx W) P Z_ shapes (g : geo (w_X W) (w_F W) P Z_) emb s0 k s p b, fov_sensor W shapes g emb -> started c s0 -> 0 < dt (g_param (c_cfg c)) -> after s0 k s ->
  In p (akeys (c_models c)) -> get_sensor c p = Ok (emb fov_new) -> In b (asks s p) ->
  exists i si, after s0 i si /\ active si p /\ time si = ask_t b /\ o_time (ask_given b) = ask_t b /\
    (exists m, model_of si p = Some m /\ sees (ask_given b) p = Some (get_state W m, footprint W m)) /\
    forall q x occ, sees (ask_given b) q = Some (x, occ) -> active si q /\ state_of si q = Some x.
Proof. exact C134_fov_truth_pf. Qed.
Print Assumptions C134_fov_truth.

(** And it is shown exactly the players whose footprints meet the visible region computed, at that request, from its own pose, the obstacles of the scenario and the other players' footprints. *)
Theorem C134_fov_hides : forall W (c : ctx W) P Z_ shapes (g : geo (w_X W) (w_F W) P Z_) emb s0 k s p b, fov_sensor W shapes g emb -> started c s0 -> 0 < dt (g_param (c_cfg c)) -> after s0 k s ->
  In p (akeys (c_models c)) -> get_sensor c p = Ok (emb fov_new) -> In b (asks s p) -> (forall x y, exists t, PerceptionModel.hits g x y = Ok t) ->
  exists i si m z polys region, after s0 i si /\ time si = ask_t b /\ model_of si p = Some m /\ pose_of g (get_state W m) = Ok z /\
    polys_of g (shapes (g_scen (c_cfg c)) ++ map (fun e => snd (snd e)) (filter (fun e => negb (Nat.eqb (fst e) p)) (o_players (ask_seen b)))) polys /\
    fov g z polys = Ok region /\
    forall q n, q <> p -> active si q -> model_of si q = Some n ->
      (PerceptionModel.hits g region (footprint W n) = Ok true -> sees (ask_given b) q = Some (get_state W n, footprint W n)) /\
      (PerceptionModel.hits g region (footprint W n) = Ok false -> sees (ask_given b) q = None).
Proof. exact C134_fov_hides_pf. Qed.
Print Assumptions C134_fov_hides.

(** All the hypotheses of the last theorems hold in it; the lane follower detects an emergency; player 1 sees player 2 and never player 0. *)
Example C134_street_ex : started street_ctx street_start /\ 0 < dt (g_param (c_cfg street_ctx)) /\ after street_start 3 (nth_st street_start 3) /\
  lf_new ex_env ex_order tt vp_car tt None None = Ok street_agent /\ dget (c_players street_ctx) 0%nat = Some (inl street_agent) /\ active (nth_st street_start 3) 0%nat /\
  obtainable street_plan /\ dget (c_players street_ctx) 1%nat = Some (inr street_plan) /\
  get_sensor street_ctx 0%nat = Ok (inl (mkDelayed tt [])) /\ get_sensor street_ctx 1%nat = Ok (inr fov_new) /\
  length (asks (nth_st street_start 3) 0%nat) = 3%nat /\ length (asks (nth_st street_start 3) 1%nat) = 3%nat /\
  (exists b, In b (asks (nth_st street_start 3) 0%nat) /\ detects_emergency ex_env sb_default 0%nat (ask_given b)).
Proof.
  split; [apply street_started|]. split; [vm_compute; reflexivity|]. split; [apply street_after|]. split; [apply street_agent_new|]. split; [reflexivity|]. split; [unfold active; apply (proj1 (dmem_spec _ _)); vm_compute; reflexivity|].
  split; [apply street_obtainable|]. split; [reflexivity|]. split; [reflexivity|]. split; [reflexivity|]. split; [vm_compute; reflexivity|]. split; [vm_compute; reflexivity|].
  assert (H : match asks (nth_st street_start 3) 0%nat with b :: _ => match get_speed_ref (lf_kin ex_env) sb_default 0%nat (Some (o_players (ask_given b))) with Ok (_, e) => e | Err _ => false end | [] => false end = true) by (vm_compute; reflexivity).
  destruct (asks (nth_st street_start 3) 0%nat) as [|b r]; [discriminate|]. exists b. split; [left; reflexivity|]. unfold detects_emergency.
  destruct (get_speed_ref _ _ _ _) as [[v [|]]|]; try discriminate. exists v. reflexivity.
Qed.

Example C134_street_sees_ex :
  map (fun b => map (fun q => match sees (ask_given b) q with Some _ => true | None => false end) [0; 1; 2]%nat) (asks (nth_st street_start 3) 1%nat) = [[false; true; true]; [false; true; true]; [false; true; true]] /\
  map (fun b => map (fun q => match sees (ask_given b) q with Some _ => true | None => false end) [0; 1; 2]%nat) (asks (nth_st street_start 3) 0%nat) = [[true; true; true]; [true; true; true]; [true; true; true]] /\
  qs_eqb (map (fun b => match sees (ask_given (W := street) b) 1%nat with Some (x, _) => vs_vx x | None => 0 end) (asks (nth_st street_start 3) 0%nat)) [10; 10; 21 # 2]%Q = true.
Proof. split; [vm_compute; reflexivity|]. split; vm_compute; reflexivity. Qed.
