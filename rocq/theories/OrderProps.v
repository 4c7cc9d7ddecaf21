(* Generated from tools/Order.src by tools/gen_props.py. *)
(** The order in which the players are listed. *)
From Coq Require Import QArith Qcanon ZArith List Bool Arith Lia Permutation.
From Verif Require Import Base Num SeqModel SeqProofs VehState CtrlModel AgentModel PerceptionModel PerceptionSpec SimulatorModel SimulatorSpec DictLemmas SimulatorProofs SimulatorProofs2 SimulatorProofs3 SimulatorProofs4 SimulatorProofs5 SimulatorProofs6 SimulatorProofs7 SimulatorWorld CauseSpec CauseProofs CauseMain ApartSpec ApartProofs ApartMain OrderSpec OrderProofs OrderRead.
Import ListNotations.
Open Scope Qc_scope.
From Verif Require Import OrderMain.

(** ** C136  The order in which the players are listed does not matter *)

(** Take two contexts that differ only in the order in which the dicts of models, players, sensors and missions list their entries.  If the sensors and agents do not depend on the order of the players in an observation and no collision between two players is resolved (collisions with obstacles are allowed), then both runs start, and after every number of iterations they agree on the time, the active players, everybody's model and log, the set of reported collisions and whether the run is over. *)
Theorem C136_order : forall W (c c' : ctx W) s0 k s, reordered c c' -> NoDup (akeys (c_sensors c)) -> (forall a b, intersects W a b = intersects W b a) ->
  started c s0 -> 0 < dt (g_param (c_cfg c)) -> after s0 k s -> (forall q, In q (akeys (c_models c)) -> order_blind c s q) -> no_contact s ->
  exists z0 z, started c' z0 /\ after z0 k z /\ same_state s z.
Proof. exact C136_order_pf. Qed.
Print Assumptions C136_order.

(** So a complete run of the other context ends too, in the same state and with the same logs. *)
Theorem C136_run : forall W (c c' : ctx W) m m' fuel sf, reordered c c' -> NoDup (akeys (c_sensors c)) -> (forall a b, intersects W a b = intersects W b a) ->
  valid_ctx c -> unused m -> unused m' -> 0 < dt (g_param (c_cfg c)) -> run fuel m c = Some (Ok sf) -> (forall q, In q (akeys (c_models c)) -> order_blind c sf q) -> no_contact sf ->
  exists zf, run fuel m' c' = Some (Ok zf) /\ same_state sf zf /\ same_logs_all sf zf.
Proof. exact C136_run_pf. Qed.
Print Assumptions C136_run.

(** ** Which sensors and agents do not depend on the order *)

(** A sensor that passes reorderings on as reorderings, with an agent that does not read the order. *)
Theorem C136_blind : forall W (c : ctx W) s0 k s p S A, started c s0 -> 0 < dt (g_param (c_cfg c)) -> after s0 k s ->
  passes_order (g_scen (c_cfg c)) p S -> (forall f, get_sensor c p = Ok f -> S f f) -> reads_unordered A -> (forall a, initialised c p a -> A a) -> order_blind c s p.
Proof. exact C136_blind_pf. Qed.
Print Assumptions C136_blind.

(** IdObsFilter. *)
Theorem C136_id_sensor : forall W sc p (f : w_S W), (forall o, sense W f sc o p = Ok (f, o)) -> passes_order sc p (fun a b => a = f /\ b = f).
Proof. exact C136_id_sensor_pf. Qed.
Print Assumptions C136_id_sensor.

(** GhostObsFilter around an IdObsFilter. *)
Theorem C136_ghost_sensor : forall W P Z_ shapes (g : geo (w_X W) (w_F W) P Z_) e d f sc p, ghost_sensor W shapes g e d f -> passes_order sc p (fun a b => a = f /\ b = f).
Proof. exact C136_ghost_sensor_pf. Qed.
Print Assumptions C136_ghost_sensor.

(** DelayedObsFilter around an IdObsFilter: the observations it keeps may be in another order too. *)
Theorem C136_delayed_sensor : forall W shapes L emb sc p, delay_sensor W shapes L emb -> passes_order sc p (delayed_alike emb) /\ forall s, delayed_alike emb (emb (mkDelayed s [])) (emb (mkDelayed s [])).
Proof. exact C136_delayed_sensor_pf. Qed.
Print Assumptions C136_delayed_sensor.

(** FovObsFilter, if the visible region depends on the set of obstacles only and the intersection tests do not raise. *)
Theorem C136_fov_sensor : forall W P Z_ shapes (g : geo (w_X W) (w_F W) P Z_) emb sc p, fov_sensor W shapes g emb -> (forall z l l', Permutation l l' -> fov g z l' = fov g z l) ->
  (forall a b, exists v, PerceptionModel.hits g a b = Ok v) -> passes_order sc p (fun a b => a = b /\ exists f, a = emb f).
Proof. exact C136_fov_sensor_pf. Qed.
Print Assumptions C136_fov_sensor.

(** NPAgents only read the time. *)
Theorem C136_plan_agent : forall W emb, open_loop W emb -> reads_unordered (fun a : w_A W => exists plan, a = emb plan).
Proof. exact C136_plan_agent_pf. Qed.
Print Assumptions C136_plan_agent.

(** A lane following agent takes minima and asks whether anyone is in its way.  (If a state without velocity is observed, the order can matter: the loops stop at the first player to yield to.) *)
Theorem C136_lane_follower : forall W PP G Lane (env : lf_env (w_X W) PP G Lane) emb cmd, lane_following W env emb cmd -> (forall x, exists v, vx_of (lf_kin env) x = Some v) ->
  reads_unordered (fun a : w_A W => exists b, a = emb b).
Proof. exact C136_lane_follower_pf. Qed.
Print Assumptions C136_lane_follower.

(** ** Pile-ups *)

(** When three players touch in one iteration, the pairs are resolved in the order of the dict, each with the velocities the previous one left.  Even with a collision test and a resolution that do not depend on who comes first, and with agents that look at nothing, two orders of the same three players give different velocities. *)
Theorem C136_pileup_matters : exists W (c c' : ctx W) s0 z0 s z p, reordered c c' /\ (forall a b, intersects W a b = intersects W b a) /\
  (forall o p q t a b, resolve W o p q t a b = let '((b', a'), r) := resolve W o q p t b a in ((a', b'), r)) /\
  started c s0 /\ started c' z0 /\ (forall q, In q (akeys (c_models c)) -> order_blind c s q) /\ after s0 1 s /\ after z0 1 z /\ model_of z p <> model_of s p.
Proof. exact C136_pileup_matters_pf. Qed.
Print Assumptions C136_pileup_matters.

(** Three players far apart, one with a ghost filter, listed in the opposite order: the hypotheses hold and the runs agree; the first two players have moved and the third has reached its goal. *)
Example C136_ex : let c := list_ctx crowd tt [(1%nat, qz 0); (9%nat, qz 20); (2%nat, qz 40)] [(1%nat, tt); (9%nat, tt); (2%nat, tt)] [(1%nat, true)] [(1%nat, qz 30); (2%nat, qz 41)] in
  let c' := list_ctx crowd tt [(2%nat, qz 40); (9%nat, qz 20); (1%nat, qz 0)] [(9%nat, tt); (2%nat, tt); (1%nat, tt)] [(1%nat, true)] [(2%nat, qz 41); (1%nat, qz 30)] in
  let s := nth_st (start_of c) 3 in
  reordered c c' /\ started c (start_of c) /\ after (start_of c) 3 s /\ (forall q, In q (akeys (c_models c)) -> order_blind c s q) /\ no_contact s /\
  (exists z, after (start_of c') 3 z /\ same_state s z) /\ akeys (c_players (cx s)) = [1%nat; 9%nat] /\ qs_eqb (map snd (states_log (W := crowd) s 1%nat)) [0; 1; 3 # 2]%Q = true.
Proof.
  intros c c'. cbv zeta.
  assert (S1 : started c (start_of c)) by start. assert (S2 : started c' (start_of c')) by start.
  assert (A : after (start_of c) 3 (nth_st (start_of c) 3)) by (apply nth_st_after; vm_compute; reflexivity).
  assert (D : 0 < dt (g_param (c_cfg c))) by (vm_compute; reflexivity).
  assert (Ro : reordered c c').
  { repeat split; try reflexivity; try (apply Permutation_refl); cbn.
    - eapply Permutation_trans; [apply perm_skip, perm_swap|]. eapply Permutation_trans; [apply perm_swap|]. apply perm_skip, perm_swap.
    - eapply Permutation_trans; [apply perm_swap|]. apply perm_skip, perm_swap.
    - apply perm_swap. }
  assert (Ob : forall q, In q (akeys (c_models c)) -> order_blind c (nth_st (start_of c) 3) q).
  { intros q Kq. assert (Rd : reads_unordered (W := crowd) (fun _ => True)).
    { split; [|auto]. intros a g g' a1 u _ _ [_ P] H. cbn in *. rewrite <- (Permutation_length P). auto. }
    destruct Kq as [<-|[<-|[<-|[]]]].
    - refine (C136_blind crowd c (start_of c) 3 (nth_st (start_of c) 3) 1%nat (fun a b => a = true /\ b = true) (fun _ => True) S1 D A (C136_ghost_sensor crowd _ _ (fun _ => []) crowd_geo 9%nat 1 true _ _ (fun sc o p => eq_refl)) _ Rd (fun a _ => I)). intros f H. injection H as <-. auto.
    - refine (C136_blind crowd c (start_of c) 3 (nth_st (start_of c) 3) 9%nat (fun a b => a = false /\ b = false) (fun _ => True) S1 D A (C136_id_sensor crowd _ _ false (fun o => eq_refl)) _ Rd (fun a _ => I)). intros f H. injection H as <-. auto.
    - refine (C136_blind crowd c (start_of c) 3 (nth_st (start_of c) 3) 2%nat (fun a b => a = false /\ b = false) (fun _ => True) S1 D A (C136_id_sensor crowd _ _ false (fun o => eq_refl)) _ Rd (fun a _ => I)). intros f H. injection H as <-. auto. }
  assert (Nc : no_contact (nth_st (start_of c) 3)).
  { assert (X : forallb (fun x => match x with EPair _ _ _ _ => false | _ => true end) (ev (nth_st (start_of c) 3)) = true) by (vm_compute; reflexivity). rewrite forallb_forall in X. intros p q t out H. apply X in H. discriminate. }
  split; [exact Ro|]. split; [exact S1|]. split; [exact A|]. split; [exact Ob|]. split; [exact Nc|]. split.
  - refine (run_order c c' (start_of c) (start_of c') 3 (nth_st (start_of c) 3) Ro _ _ S1 S2 D A Ob Nc); [repeat constructor; cbn; tauto|]. intros a b. apply near_sym.
  - split; vm_compute; reflexivity.
Qed.
