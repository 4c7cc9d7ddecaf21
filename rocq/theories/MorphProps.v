(* Generated from tools/Morph.src by tools/gen_props.py. *)
(** Simulations that correspond: other names, another clock. *)
From Coq Require Import QArith Qcanon ZArith List Bool Arith Lia.
From Verif Require Import Base Num SeqModel SeqSpec SeqProofs SeqMain VehState CtrlModel AgentModel PerceptionModel SimulatorModel SimulatorSpec DictLemmas SimulatorWorld CauseSpec ApartMain MorphSpec MorphProofs MorphRead.
Import ListNotations.
Open Scope Qc_scope.
From Verif Require Import MorphMain.

(** ** C137  Corresponding simulations correspond *)

(** Take two simulations: other agents, models, sensors, goals and scenarios, other names of the players, another reading of the clock.  If every function of the one answers corresponding arguments as the function of the other does, then complete runs of corresponding contexts either raise the same exception, or both end, with corresponding models, logs, times and collision reports. *)
Theorem C137_run : forall W V (r : relations W V) rho delta c d fuel, (forall p q, rho p = rho q -> p = q) -> corresponding r rho delta -> ctx_match r rho delta c d ->
  opt (both (fun s z => ctx_match r rho delta (cx s) (cx z))) (run fuel new_simulator c) (run fuel new_simulator d).
Proof. exact C137_run_pf. Qed.
Print Assumptions C137_run.

(** The same after every number of iterations of the loop: neither of the two is ahead. *)
Theorem C137_after : forall W V (r : relations W V) rho delta c d s0 k s, (forall p q, rho p = rho q -> p = q) -> corresponding r rho delta -> ctx_match r rho delta c d ->
  init_run c new_simulator = Ok s0 -> after s0 k s -> exists z0 z, init_run d new_simulator = Ok z0 /\ after z0 k z /\ ctx_match r rho delta (cx s) (cx z).
Proof. exact C137_after_pf. Qed.
Print Assumptions C137_after.

(** Names.  In a world where names mean nothing, renaming the players renames them in the results and changes nothing else. *)
Theorem C137_names : forall W rho (c : ctx W) fuel, (forall p q, rho p = rho q -> p = q) -> nameless W rho ->
  match run fuel new_simulator c with
  | Some (Ok s) => exists z, run fuel new_simulator (ren_ctx rho 0 (ren rho (c_players c)) c) = Some (Ok z) /\ cx z = ren_ctx rho 0 (ren rho (c_players (cx s))) (cx s)
  | other => run fuel new_simulator (ren_ctx rho 0 (ren rho (c_players c)) c) = match other with Some (Err e) => Some (Err e) | _ => None end
  end.
Proof. exact C137_names_pf. Qed.
Print Assumptions C137_names.

(** Time.  If nothing but the agents reads the clock, and the agents are open loop plans, then running the plans shifted by [delta], on a clock that starts at [delta] instead of 0, gives the same states, commands and collisions, [delta] later. *)
Theorem C137_later : forall W emb delta (c : ctx W) plans fuel, timeless W delta -> open_loop W emb ->
  c_players c = map (fun e => (fst e, emb (fst (snd e)))) plans ->
  (forall p a b, In (p, (a, b)) plans -> obtainable a /\ shift_timestamps a delta = Ok b) ->
  let d := ren_ctx (fun p => p) delta (map (fun e => (fst e, emb (snd (snd e)))) plans) c in
  match run fuel new_simulator c with
  | Some (Ok s) => exists z, run fuel new_simulator d = Some (Ok z) /\ cx z = ren_ctx (fun p => p) delta (c_players (cx z)) (cx s) /\ akeys (c_players (cx z)) = akeys (c_players (cx s))
  | other => run fuel new_simulator d = match other with Some (Err e) => Some (Err e) | _ => None end
  end.
Proof. exact C137_later_pf. Qed.
Print Assumptions C137_later.

(** The sensors of the package.  IdObsFilter answers corresponding observations with corresponding observations; so does DelayedObsFilter around a sensor that does, GhostObsFilter with the new name of the ghost, and FovObsFilter, whose field of view does not depend on names. *)
Theorem C137_id_sensor : forall X F rho delta, equivariant (X := X) (F := F) rho delta (fun s => s) id_sense id_sense.
Proof. exact C137_id_sensor_pf. Qed.
Print Assumptions C137_id_sensor.

Theorem C137_delayed_sensor : forall X F S rho delta (h : S -> S) (inner inner' : S -> list F -> simobs X F -> player -> result (S * simobs X F)) L, equivariant rho delta h inner inner' ->
  equivariant rho delta (fun d => mkDelayed (h (dl_inner d)) (map (fun e => (fst e + delta, ren_obs rho delta (snd e))) (dl_hist d))) (delayed_sense inner L) (delayed_sense inner' L).
Proof. exact C137_delayed_sensor_pf. Qed.
Print Assumptions C137_delayed_sensor.

Theorem C137_ghost_sensor : forall X F P Z_ S (g : geo X F P Z_) rho delta (h : S -> S) (inner inner' : S -> list F -> simobs X F -> player -> result (S * simobs X F)) ghost d, (forall p q, rho p = rho q -> p = q) ->
  equivariant rho delta h inner inner' -> equivariant rho delta h (ghost_sense g inner ghost d) (ghost_sense g inner' (rho ghost) d).
Proof. exact C137_ghost_sensor_pf. Qed.
Print Assumptions C137_ghost_sensor.

Theorem C137_fov_sensor : forall X F P Z_ (g : geo X F P Z_) rho delta, (forall p q, rho p = rho q -> p = q) -> equivariant rho delta (fun f => f) (fov_sense g) (fov_sense g).
Proof. exact C137_fov_sensor_pf. Qed.
Print Assumptions C137_fov_sensor.

(** The agents.  A plan asked at a later time answers as the later plan; a lane following agent told another name drives the same, at the same times, if everybody else is renamed as well.  (Its lights follow the absolute clock.) *)
Theorem C137_plan_agent : forall X F U rho delta (plan plan' : seq U) (o : simobs X F), obtainable plan -> shift_timestamps plan delta = Ok plan' ->
  np_get_commands plan' (ren_obs rho delta o) = np_get_commands plan o.
Proof. exact C137_plan_agent_pf. Qed.
Print Assumptions C137_plan_agent.

Theorem C137_lane_follower : forall X F PP G Lane (env : lf_env X PP G Lane) rho a (o : simobs X F), (forall p q, rho p = rho q -> p = q) ->
  lf_get_commands env (told rho a) (ren_obs rho 0 o) = match lf_get_commands env a o with Ok (b, u) => Ok (told rho b, u) | Err e => Err e end.
Proof. exact C137_lane_follower_pf. Qed.
Print Assumptions C137_lane_follower.

Example C137_names_ex : forall fuel, nameless crowd plus1 /\
  match run fuel new_simulator (crowd_ctx true []) with
  | Some (Ok s) => exists z, run fuel new_simulator (ren_ctx plus1 0 (ren plus1 (c_players (crowd_ctx true []))) (crowd_ctx true [])) = Some (Ok z) /\ cx z = ren_ctx plus1 0 (ren plus1 (c_players (cx s))) (cx s)
  | other => run fuel new_simulator (ren_ctx plus1 0 (ren plus1 (c_players (crowd_ctx true []))) (crowd_ctx true [])) = match other with Some (Err e) => Some (Err e) | _ => None end
  end /\ (forall p q, plus1 p = plus1 q -> p = q).
Proof. intro fuel. split; [exact crowd_nameless|]. split; [exact (C137_names crowd plus1 (crowd_ctx true []) fuel plus1_inj crowd_nameless)|exact plus1_inj]. Qed.

(** The run really ends, with collisions between 1 and 2, now 2 and 3. *)
Example C137_names_run_ex : match run 20 new_simulator (crowd_ctx true []), run 20 new_simulator (ren_ctx plus1 0 (ren plus1 (c_players (crowd_ctx true []))) (crowd_ctx true [])) with
  | Some (Ok s), Some (Ok z) => existsb (fun x => match r_players x with [1; 2]%nat => true | _ => false end) (c_reports (cx s)) && existsb (fun x => match r_players x with [2; 3]%nat => true | _ => false end) (c_reports (cx z)) && Nat.leb 3 (length (c_log (cx z)))
  | _, _ => false end = true.
Proof. vm_compute. reflexivity. Qed.

Example C137_later_ex : forall fuel,
  let d := @ren_ctx convoy (fun p => p) (qz 10) (map (fun e => (fst e, snd (snd e))) convoy_plans) convoy_ctx in
  match run fuel new_simulator convoy_ctx with
  | Some (Ok s) => exists z, run fuel new_simulator d = Some (Ok z) /\ cx z = ren_ctx (fun p => p) (qz 10) (c_players (cx z)) (cx s) /\ akeys (c_players (cx z)) = akeys (c_players (cx s))
  | other => run fuel new_simulator d = match other with Some (Err e) => Some (Err e) | _ => None end
  end.
Proof.
  intro fuel. refine (C137_later convoy (fun a => a) (qz 10) convoy_ctx convoy_plans fuel _ _ eq_refl _).
  - constructor; reflexivity.
  - split; [reflexivity|]. split; reflexivity.
  - intros p a b [H|[H|[]]]; injection H as <- <- <-; (split; [first [apply (ob_new Qc true (tss plan_a) (vals plan_a) plan_a) | apply (ob_new Qc true (tss plan_b) (vals plan_b) plan_b)]; vm_compute; reflexivity|vm_compute; reflexivity]).
Qed.

Example C137_later_run_ex : match run 20 new_simulator convoy_ctx with Some (Ok s) => match c_reports (cx s) with [] => false | _ => true end && qeqb (c_time (cx s)) (qf 9 2) | _ => false end = true.
Proof. vm_compute. reflexivity. Qed.
