(* Generated from tools/Apart.src by tools/gen_props.py. *)
(** A player the others neither notice nor touch. *)
From Coq Require Import QArith Qcanon ZArith List Bool Arith Lia.
From Verif Require Import Base Num SeqModel SeqProofs AgentModel PerceptionModel PerceptionSpec SimulatorModel SimulatorSpec DictLemmas SimulatorProofs SimulatorProofs2 SimulatorProofs4 SimulatorProofs5 SimulatorProofs6 SimulatorProofs7 SimulatorWorld CauseSpec CauseProofs CauseMain ApartSpec ApartProofs.
Import ListNotations.
Open Scope Qc_scope.
From Verif Require Import ApartMain.

(** ** C135  A player nobody notices and nobody touches changes nothing for the others *)

(** Take a simulation with a player [e] such that the others' sensors and agents answer as they would without [e], and no collision of [e] is resolved; if [e] has a mission, somebody else has one too.  Run the same context without [e].  After every number of iterations the two runs agree on the time, on which of the others are active and on everything logged for them, up to the iteration at which the run without [e] stops; and they agree on the others' models and the reported collisions too, as long as neither has stopped or both stop together. *)
Theorem C135_unnoticed : forall W (c : ctx W) e s0 z0 k s, started c s0 -> started (ctx_without e c) z0 -> 0 < dt (g_param (c_cfg c)) ->
  (In e (akeys (g_missions (c_cfg c))) -> exists q, q <> e /\ In q (akeys (g_missions (c_cfg c)))) -> after s0 k s ->
  (forall q, q <> e -> In q (akeys (c_models c)) -> ignores c s e q) -> untouched e s ->
  exists j sj z, after s0 j sj /\ after z0 j z /\ ((j = k /\ sj = s) \/ ((j < k)%nat /\ c_term (cx z) = true)) /\
    same_histories e sj z /\ (c_term (cx sj) = c_term (cx z) -> same_others e sj z) /\ (c_term (cx sj) = true -> c_term (cx z) = true).
Proof. exact C135_unnoticed_pf. Qed.
Print Assumptions C135_unnoticed.

(** If [e] has no mission and is not alone, the two runs take the same number of iterations and agree throughout. *)
Theorem C135_bystander : forall W (c : ctx W) e s0 z0 k s, started c s0 -> started (ctx_without e c) z0 -> 0 < dt (g_param (c_cfg c)) ->
  ~ In e (akeys (g_missions (c_cfg c))) -> (exists q, q <> e /\ In q (akeys (c_models c))) -> after s0 k s ->
  (forall q, q <> e -> In q (akeys (c_models c)) -> ignores c s e q) -> untouched e s ->
  exists z, after z0 k z /\ c_term (cx z) = c_term (cx s) /\ same_others e s z.
Proof. exact C135_bystander_pf. Qed.
Print Assumptions C135_bystander.

(** So the whole run without [e] ends too, after as many iterations, with the same models, reports and logs of the others. *)
Theorem C135_bystander_run : forall W (c : ctx W) e m m' fuel sf, valid_ctx c -> unused m -> unused m' -> 0 < dt (g_param (c_cfg c)) ->
  ~ In e (akeys (g_missions (c_cfg c))) -> (exists q, q <> e /\ In q (akeys (c_models c))) -> run fuel m c = Some (Ok sf) ->
  (forall q, q <> e -> In q (akeys (c_models c)) -> ignores c sf e q) -> untouched e sf ->
  exists zf, run fuel m' (ctx_without e c) = Some (Ok zf) /\ same_others e sf zf /\ same_logs e sf zf.
Proof. exact C135_bystander_run_pf. Qed.
Print Assumptions C135_bystander_run.

(** An NPAgent whose sensor only looks at, or passes on, observations with the right time (an IdObsFilter, for one) ignores everybody. *)
Theorem C135_plan_ignores : forall W (c : ctx W) emb s e p plan, open_loop W emb -> dget (c_players c) p = Some (emb plan) ->
  (forall f, get_sensor c p = Ok f -> forall o, sense W f (g_scen (c_cfg c)) o p = Ok (f, o)) -> ignores c s e p.
Proof. exact C135_plan_ignores_pf. Qed.
Print Assumptions C135_plan_ignores.

(** A player with a GhostObsFilter for [e] (around an IdObsFilter) ignores [e] if the filter kept [e] out of everything it was shown, whatever its agent does with its observations. *)
Theorem C135_ghost_ignores : forall W (c : ctx W) P Z_ shapes (g : geo (w_X W) (w_F W) P Z_) d f s0 k s e p, ghost_sensor W shapes g e d f -> started c s0 -> 0 < dt (g_param (c_cfg c)) -> after s0 k s ->
  In p (akeys (c_models c)) -> p <> e -> get_sensor c p = Ok f -> (forall b, In b (asks s p) -> sees (ask_given b) e = None) -> ignores c s e p.
Proof. exact C135_ghost_ignores_pf. Qed.
Print Assumptions C135_ghost_ignores.

(** No mission, players 1 and 2 ghost player 9: after three iterations both runs agree, players 1 and 2 having collided. *)
Example C135_ghost_ex : let c := crowd_ctx true [] in
  started c (start_of c) /\ started (ctx_without 9%nat c) (start_of (ctx_without 9%nat c)) /\ 0 < dt (g_param (c_cfg c)) /\ after (start_of c) 3 (nth_st (start_of c) 3) /\
  (forall q, q <> 9%nat -> In q (akeys (c_models c)) -> ignores c (nth_st (start_of c) 3) 9%nat q) /\ untouched 9%nat (nth_st (start_of c) 3) /\
  exists z, after (start_of (ctx_without 9%nat c)) 3 z /\ same_others 9%nat (nth_st (start_of c) 3) z /\ length (c_reports (cx z)) = 3%nat.
Proof.
  cbv zeta. set (c := crowd_ctx true []).
  assert (S1 : started c (start_of c)) by start. assert (S2 : started (ctx_without 9%nat c) (start_of (ctx_without 9%nat c))) by start.
  assert (D : 0 < dt (g_param (c_cfg c))) by (vm_compute; reflexivity). assert (A : after (start_of c) 3 (nth_st (start_of c) 3)) by (apply nth_st_after; vm_compute; reflexivity).
  assert (Ig : forall q, q <> 9%nat -> In q (akeys (c_models c)) -> ignores c (nth_st (start_of c) 3) 9%nat q).
  { intros q Nq Kq. assert (G : get_sensor c q = Ok true /\ forallb (fun b => match sees (ask_given (W := crowd) b) 9%nat with None => true | Some _ => false end) (asks (nth_st (start_of c) 3) q) = true).
    { destruct Kq as [<-|[<-|[<-|[]]]]; [|contradiction|]; (split; [reflexivity|vm_compute; reflexivity]). }
    refine (C135_ghost_ignores crowd c _ _ (fun _ => []) crowd_geo 1 true (start_of c) 3 (nth_st (start_of c) 3) 9%nat q _ S1 D A Kq Nq (proj1 G) _); [intros sc o p; reflexivity|].
    intros b Hb. destruct G as [_ G]. rewrite forallb_forall in G. exact (none_of _ (G b Hb)). }
  assert (U : untouched 9%nat (nth_st (start_of c) 3)).
  { assert (X : forallb (fun x => match x with EEnv p _ _ _ _ => negb (Nat.eqb p 9) | EPair p q _ _ => negb (Nat.eqb p 9) && negb (Nat.eqb q 9) | _ => true end) (ev (nth_st (start_of c) 3)) = true) by (vm_compute; reflexivity).
    rewrite forallb_forall in X. split; [intros i t d out H; apply X in H; discriminate|]. intros p q t out H. apply X in H. apply andb_true_iff in H as [H1 H2]. apply negb_true_iff in H1, H2. apply Nat.eqb_neq in H1, H2. auto. }
  repeat (split; [assumption|]).
  destruct (C135_bystander crowd c 9%nat (start_of c) (start_of (ctx_without 9%nat c)) 3 (nth_st (start_of c) 3) S1 S2 D) as (z & Z1 & _ & Z2); [cbn; tauto|exists 1%nat; split; [discriminate|left; reflexivity]|exact A|exact Ig|exact U|].
  exists z. split; [exact Z1|]. split; [exact Z2|]. destruct Z2 as (_ & _ & -> & _). vm_compute. reflexivity.
Qed.

(** Without the ghost filters the others notice player 9 and behave differently. *)
Example C135_noticed_ex : let c := crowd_ctx false [] in
  started c (start_of c) /\ untouched 9%nat (nth_st (start_of c) 1) /\ qs_eqb (map snd (states_log (W := crowd) (nth_st (start_of c) 2) 1%nat)) [0; 3 # 2]%Q = true /\
  qs_eqb (map snd (states_log (W := crowd) (nth_st (start_of (ctx_without 9%nat c)) 2) 1%nat)) [0; 1]%Q = true.
Proof.
  cbv zeta. split; [start|]. split.
  - assert (X : forallb (fun x => match x with EEnv p _ _ _ _ => negb (Nat.eqb p 9) | EPair p q _ _ => negb (Nat.eqb p 9) && negb (Nat.eqb q 9) | _ => true end) (ev (nth_st (start_of (crowd_ctx false [])) 1)) = true) by (vm_compute; reflexivity).
    rewrite forallb_forall in X. split; [intros i t d out H; apply X in H; discriminate|]. intros p q t out H. apply X in H. apply andb_true_iff in H as [H1 H2]. apply negb_true_iff in H1, H2. apply Nat.eqb_neq in H1, H2. auto.
  - split; vm_compute; reflexivity.
Qed.

(** With missions the run without player 9 may stop earlier: player 9's goal keeps the other run going. *)
Example C135_longer_ex : let c := crowd_ctx true [(1%nat, qz 1); (9%nat, qz 100)] in
  started c (start_of c) /\ after (start_of c) 3 (nth_st (start_of c) 3) /\ after (start_of (ctx_without 9%nat c)) 1 (nth_st (start_of (ctx_without 9%nat c)) 1) /\
  c_term (cx (nth_st (start_of c) 1)) = false /\ c_term (cx (nth_st (start_of (ctx_without 9%nat c)) 1)) = true.
Proof. cbv zeta. split; [start|]. split; [apply nth_st_after; vm_compute; reflexivity|]. split; [apply nth_st_after; vm_compute; reflexivity|]. split; vm_compute; reflexivity. Qed.

(** If player 9 alone has a mission, its arrival stops the run, and without it nothing does. *)
Example C135_only_mission_ex : let c := crowd_ctx true [(9%nat, qz 20)] in
  started c (start_of c) /\ c_term (cx (nth_st (start_of c) 1)) = true /\ c_term (cx (nth_st (start_of (ctx_without 9%nat c)) 1)) = false.
Proof. cbv zeta. split; [start|]. split; vm_compute; reflexivity. Qed.
