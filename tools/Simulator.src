(** Properties C20-C30: the simulator loop (sim/simulator.py) and its logs
    (sim/simulator_structures.py).

    [started c s0]: a Simulator object that never ran was given the valid
    context [c] and initialised the episode; [after s0 k s]: [s] is the state
    after [k] iterations of the main loop.  The [world] (agents, models, goals,
    sensors, shapely, collision resolution) is universally quantified. *)
From Coq Require Import QArith Qcanon ZArith List Bool Arith Lia Sorted.
From Verif Require Import Base Num SeqModel SeqSpec SeqProofs SeqProofs2 DictLemmas SimulatorModel SimulatorSpec
  SimulatorProofs SimulatorProofs2 SimulatorProofs3 SimulatorProofs4 SimulatorProofs5 SimulatorProofs6 SimulatorProofs7
  SimulatorProofs8 SimulatorWorld.
Import ListNotations.
Open Scope Qc_scope.
(* BODY *)

(** ** C20 *)

Theorem C20_time_is_the_dt_grid : forall W (c : ctx W) s0 k s, started c s0 -> 0 < dt (g_param (c_cfg c)) -> after s0 k s ->
  time s = c_time c + qn k * dt (g_param (c_cfg c)).
Proof.
  intros W c s0 k s S D A. exact (fa_time _ _ _ _ (started_facts _ _ _ _ S D A)).
Qed.

(** The state log of [p] after [k] iterations: increasing times; one sample per
    iteration [p] was active in, holding the state before that iteration, and
    one more at the end of the iteration in which [p] left. *)
Theorem C20_each_tick_logged_once : forall W (c : ctx W) s0 k s p, started c s0 -> 0 < dt (g_param (c_cfg c)) -> after s0 k s ->
  In p (akeys (c_models c)) ->
  StronglySorted Qclt (map fst (states_log s p)) /\
  forall t x, In (t, x) (states_log s p) <->
    (exists i si, (i < k)%nat /\ after s0 i si /\ active si p /\ t = time si /\ state_of si p = Some x) \/
    (exists i si si', (i < k)%nat /\ after s0 i si /\ after s0 (S i) si' /\ active si p /\ ~ active si' p /\
        t = time si' /\ state_of si' p = Some x).
Proof.
  intros W c s0 k s p S D A Hp. pose proof (started_facts _ _ _ _ S D A) as F. split.
  - apply states_log_Sorted; [exact (fa_inv _ _ _ _ F)|]. rewrite (fa_models _ _ _ _ F). exact Hp.
  - apply states_log_spec with (c := c); assumption.
Qed.

Example C20_ex : started ctx1 start1 /\ 0 < dt (g_param (c_cfg ctx1)) /\ after start1 4 (nth_st start1 4) /\
  map (fun a => (this (fst a), this (snd a))) (states_log (nth_st start1 4) 1)
    = [(0#1, 0#1); (1#2, 1#2); (1#1, 1#1)]%Q /\
  map (fun a => (this (fst a), this (snd a))) (states_log (nth_st start1 4) 2)
    = [(0#1, 4#1); (1#2, 7#2); (1#1, 3#1); (3#2, 5#2)]%Q.
Proof.
  split; [exact started1|]. split; [exact dt1|]. split; [apply after1; lia|]. split; vm_compute; reflexivity.
Qed.

(** ** C21 *)

(** As soon as [fuel] iterations cover the time limit, [run] has ended (with a
    result or an exception). *)
Theorem C21_run_ends : forall W (c : ctx W) m fuel, valid_ctx c -> unused m -> 0 < dt (g_param (c_cfg c)) ->
  (0 < fuel)%nat -> max_sim_time (g_param (c_cfg c)) < c_time c + qn fuel * dt (g_param (c_cfg c)) ->
  run fuel m c <> None.
Proof.
  intros W c m fuel V U D Hf Hm H. unfold run in H. destruct (init_run c m) as [s0|] eqn:E0; [|discriminate].
  assert (S : started c s0) by (split; [exact V|eauto]).
  destruct (loop fuel s0) as [[s|e]|] eqn:El; [discriminate|discriminate|].
  destruct (loop_none s0 fuel 0 s0 (after_0 s0) El) as (s' & A & T). cbn [Nat.add] in A.
  inversion A as [|k s1 s2 A1 T1 Hs Ek]; subst; [lia|].
  pose proof (after_step _ _ _ _ _ S D A1 Hs) as R. pose proof (started_facts _ _ _ _ S D A) as F.
  assert (St : stop_reason (set_reports (cx s') (c_reports (cx s1)) (c_first (cx s1)))).
  { apply stop_time. cbn [set_reports c_time c_cfg]. rewrite (fa_cfg _ _ _ _ F). change (c_time (cx s')) with (time s'). rewrite (fa_time _ _ _ _ F). exact Hm. }
  apply (sr_term _ _ R) in St. congruence.
Qed.

(** Such a number of iterations always exists. *)
Theorem C21_run_always_ends : forall W (c : ctx W) m, valid_ctx c -> unused m -> 0 < dt (g_param (c_cfg c)) ->
  exists fuel r, run fuel m c = Some r.
Proof.
  intros W c m V U D. destruct (qn_arch (max_sim_time (g_param (c_cfg c)) - c_time c) _ D) as [n Hn].
  exists (S n). destruct (run (S n) m c) as [r|] eqn:E; [eauto|exfalso].
  eapply C21_run_ends; [exact V|exact U|exact D| | |exact E]; [lia|]. rewrite qn_S. qlra.
Qed.

(** No iteration after the first starts beyond the time limit. *)
Theorem C21_no_iteration_past_the_limit : forall W (c : ctx W) s0 k s, started c s0 -> 0 < dt (g_param (c_cfg c)) ->
  after s0 (S k) s -> c_term (cx s) = false -> time s <= max_sim_time (g_param (c_cfg c)).
Proof.
  intros W c s0 k s S D A T. inversion A as [|k0 s1 s2 A1 T1 Hs Ek]; subst.
  pose proof (after_step _ _ _ _ _ S D A1 Hs) as R. pose proof (started_facts _ _ _ _ S D A) as F.
  apply Qcnot_lt_le. intro C.
  assert (St : stop_reason (set_reports (cx s) (c_reports (cx s1)) (c_first (cx s1)))).
  { apply stop_time. cbn [set_reports c_time c_cfg]. rewrite (fa_cfg _ _ _ _ F). exact C. }
  apply (sr_term _ _ R) in St. congruence.
Qed.

Example C21_ex : valid_ctx ctx1 /\ unused (new_simulator (W := line)) /\ 0 < dt (g_param (c_cfg ctx1)) /\
  max_sim_time (g_param (c_cfg ctx1)) < c_time ctx1 + qn 7 * dt (g_param (c_cfg ctx1)) /\
  (exists s, run 7 new_simulator ctx1 = Some (Ok s) /\ time s = qf 7 2) /\ run 6 new_simulator ctx1 = None.
Proof.
  split; [apply started1|]. split; [reflexivity|]. split; [exact dt1|]. split; [vm_compute; reflexivity|]. split.
  - destruct (get_ok (fun s => qeqb (time s) (qf 7 2)) (run 7 new_simulator ctx1)) as (s & E1 & E2); [vm_compute; reflexivity|].
    exists s. split; [exact E1|]. apply qeqb_eq; exact E2.
  - apply get_running. vm_compute. reflexivity.
Qed.

(** ** C22 *)

(** In each iteration every active player whose request is due (none yet, or
    the last one at least dt_commands ago) is asked once, at the current time;
    nobody else is asked. *)
Theorem C22_asked_exactly_when_due : forall W (c : ctx W) s0 k s s' p, started c s0 -> 0 < dt (g_param (c_cfg c)) ->
  after s0 k s -> c_term (cx s) = false -> step s = Ok s' ->
  (active s p -> due s p -> exists full o u, asks s' p = asks s p ++ [(time s, full, o, u)]) /\
  (~ (active s p /\ due s p) -> asks s' p = asks s p).
Proof.
  intros W c s0 k s s' p S D A T Hs. pose proof (after_step _ _ _ _ _ S D A Hs) as R.
  destruct (active_dec s p) as [Ha|Hn].
  - pose proof (asked_iff_due _ _ _ _ _ _ S D A T R Ha) as Q.
    destruct (sr_act _ _ R p Ha) as [m m1 m2 u l l' fin P1 P2 P3 P4 P5 P6 P7 P8 P9 P10 P11 P12 P13 P14]. unfold asks.
    destruct (need_commands s) eqn:Nd.
    + destruct P14 as (f & f' & o & a & a' & a'' & x & full & _ & _ & _ & _ & _ & _ & _ & _ & _ & Q10). split.
      * intros _ _. eauto.
      * intro C. exfalso. apply C. tauto.
    + destruct P14 as (_ & _ & _ & _ & Q5). split; [|intros _; exact Q5].
      intros _ Hd. apply Q in Hd. discriminate.
  - split; [contradiction|]. intros _. apply (sr_inact _ _ R p Hn).
Qed.

(** The first request of every player is at the start time. *)
Theorem C22_first_request_at_start : forall W (c : ctx W) s0 k s p, started c s0 -> 0 < dt (g_param (c_cfg c)) ->
  after s0 (S k) s -> In p (akeys (c_models c)) -> exists a r, asks s p = a :: r /\ ask_t a = c_time c.
Proof.
  intros W c s0 k s p S D A Hp. apply (ai_first _ _ _ _ (ainv_holds _ _ S D _ _ A) p Hp). lia.
Qed.

(** Consecutive requests are at least dt_commands apart, on the grid, and there
    is no earlier grid point at that distance. *)
Theorem C22_requests_spaced : forall W (c : ctx W) s0 k s p pre a b suf, started c s0 -> 0 < dt (g_param (c_cfg c)) -> after s0 k s ->
  asks s p = pre ++ a :: b :: suf ->
  dt_commands (g_param (c_cfg c)) <= ask_t b - ask_t a /\ ask_t a < ask_t b /\
  (exists j, ask_t b = c_time c + qn j * dt (g_param (c_cfg c))) /\
  (forall j, ask_t a < c_time c + qn j * dt (g_param (c_cfg c)) -> c_time c + qn j * dt (g_param (c_cfg c)) < ask_t b ->
     c_time c + qn j * dt (g_param (c_cfg c)) - ask_t a < dt_commands (g_param (c_cfg c))).
Proof.
  intros W c s0 k s p pre a b suf S D A E. pose proof (ainv_holds _ _ S D _ _ A) as J.
  destruct (ai_spaced _ _ _ _ J _ _ _ _ _ E) as (H1 & H2 & H3). split; [exact H1|]. split; [exact H2|]. split; [|exact H3].
  destruct (ai_grid _ _ _ _ J p b) as (j & _ & Hj); [rewrite E; apply in_app_iff; right; right; left; reflexivity|]. eauto.
Qed.

(** All active players have been asked at the same times. *)
Theorem C22_players_asked_together : forall W (c : ctx W) s0 k s p q, started c s0 -> 0 < dt (g_param (c_cfg c)) -> after s0 k s ->
  active s p -> active s q -> map ask_t (asks s p) = map ask_t (asks s q).
Proof.
  intros W c s0 k s p q S D A. apply (ai_same _ _ _ _ (ainv_holds _ _ S D _ _ A)).
Qed.

(** Every model is stepped once per iteration it is active in, over dt. *)
Theorem C22_model_stepped_each_iteration : forall W (c : ctx W) s0 k s s' p, started c s0 -> 0 < dt (g_param (c_cfg c)) ->
  after s0 k s -> c_term (cx s) = false -> step s = Ok s' ->
  (active s p -> exists u m m1, model_of s p = Some m /\ model_step W m u (dt (g_param (c_cfg c))) = Ok m1 /\
                   moves s' p = moves s p ++ [(time s, u, m, m1)] /\
                   (resolution_keeps_footprint W -> exists m2, model_of s' p = Some m2 /\ footprint W m2 = footprint W m1) /\
                   (c_term (cx s') = true \/ ~ active s' p -> model_of s' p = Some m1)) /\
  (~ active s p -> moves s' p = moves s p /\ model_of s' p = model_of s p).
Proof.
  intros W c s0 k s s' p S D A T Hs. pose proof (after_step _ _ _ _ _ S D A Hs) as R. pose proof (started_facts _ _ _ _ S D A) as F. split; intro Ha.
  - destruct (sr_act _ _ R p Ha) as [m m1 m2 u l l' fin P1 P2 P3 P4 P5 P6 P7 P8 P9 P10 P11 P12 P13 P14].
    exists u, m, m1. rewrite <- (fa_param _ _ _ _ F). repeat (split; [assumption|]). split; [eauto|].
    intros [C|C]; [rewrite <- (P11 C)|rewrite <- (P10 (proj2 P8 C))]; exact P3.
  - destruct (sr_inact _ _ R p Ha) as (_ & H2 & _ & _ & _ & H6). split; [exact H6|exact H2].
Qed.

(** Commands are held: the command of every step is the one returned at the
    latest request at or before that step. *)
Theorem C22_command_held : forall W (c : ctx W) s0 k s p t u m m', started c s0 -> 0 < dt (g_param (c_cfg c)) -> after s0 k s ->
  In (t, u, m, m') (moves s p) ->
  exists pre a suf, asks s p = pre ++ a :: suf /\ ask_cmd a = u /\ ask_t a <= t /\ (forall b, In b suf -> t < ask_t b).
Proof.
  intros W c s0 k s p t u m m' S D A. apply (ai_moves _ _ _ _ (ainv_holds _ _ S D _ _ A)).
Qed.

(** The command log has exactly the requests. *)
Theorem C22_command_log_is_requests : forall W (c : ctx W) s0 k s p, started c s0 -> 0 < dt (g_param (c_cfg c)) -> after s0 k s ->
  In p (akeys (c_models c)) -> commands_log s p = map (fun a => (ask_t a, ask_cmd a)) (asks s p).
Proof.
  intros W c s0 k s p S D A. apply (ai_cmds _ _ _ _ (ainv_holds _ _ S D _ _ A)).
Qed.

Example C22_ex : started ctx1 start1 /\ after start1 5 (nth_st start1 5) /\
  map (fun a => this (ask_t a)) (asks (nth_st start1 5) 2) = [0#1; 1#1; 2#1]%Q /\
  map (fun a => this (ask_t a)) (asks (nth_st start1 5) 1) = [0#1]%Q /\
  map (fun a => this (move_t a)) (moves (nth_st start1 5) 2) = [0#1; 1#2; 1#1; 3#2; 2#1]%Q /\
  due (nth_st start1 2) 2 /\ ~ due (nth_st start1 3) 2.
Proof.
  split; [exact started1|]. split; [apply after1; lia|]. split; [vm_compute; reflexivity|]. split; [vm_compute; reflexivity|].
  split; [vm_compute; reflexivity|].
  rewrite <- !dueb_spec. split; vm_compute; [reflexivity|discriminate].
Qed.

(** ** C23 *)

(** An active player leaves in an iteration iff its goal holds in the state its
    model reached in that iteration, at the new time. *)
Theorem C23_leaves_iff_goal_fulfilled : forall W (c : ctx W) s0 k s s' p, started c s0 -> 0 < dt (g_param (c_cfg c)) ->
  after s0 k s -> c_term (cx s) = false -> step s = Ok s' -> active s p ->
  (~ active s' p <-> exists g u m m1, dget (g_missions (c_cfg c)) p = Some g /\ moves s' p = moves s p ++ [(time s, u, m, m1)] /\
       goal_done W g (get_state W m1) (time s') = Ok true) /\
  (~ active s' p -> exists x, state_of s' p = Some x /\ exists l, states_log s' p = l ++ [(time s', x)]).
Proof.
  intros W c s0 k s s' p S D A T Hs Ha. pose proof (after_step _ _ _ _ _ S D A Hs) as R. pose proof (started_facts _ _ _ _ S D A) as F. split.
  - destruct (sr_act _ _ R p Ha) as [m m1 m2 u l l' fin P1 P2 P3 P4 P5 P6 P7 P8 P9 P10 P11 P12 P13 P14].
    rewrite <- P8, P9. unfold goal_met. rewrite (fa_cfg _ _ _ _ F). split.
    + intros (g & G1 & G2). exists g, u, m, m1. auto.
    + intros (g & u' & m' & m1' & G1 & G2 & G3). unfold moves in G2. rewrite P4 in G2. apply app_inv_head in G2. injection G2 as _ _ <-. eauto.
  - intro Hn. destruct (states_log_step _ _ _ _ _ _ S D A R Ha) as (x & _ & [[C _]|(_ & x' & E1 & E2)]); [contradiction|].
    exists x'. split; [exact E1|]. exists (states_log s p ++ [(time s, x)]). rewrite E2, <- app_assoc. reflexivity.
Qed.

(** Once inactive, a player stays inactive: not asked, not stepped, not logged,
    its model untouched, in no collision check and in no observation. *)
Theorem C23_gone_for_good : forall W (c : ctx W) s0 k s p n s', started c s0 -> 0 < dt (g_param (c_cfg c)) -> after s0 k s -> ~ active s p ->
  after s n s' ->
  ~ active s' p /\ asks s' p = asks s p /\ moves s' p = moves s p /\ logger_of s' p = logger_of s p /\ model_of s' p = model_of s p /\
  (exists np, pairs_of (ev s') = pairs_of (ev s) ++ np /\ forall a b t, In (a, b, t) np -> a <> p /\ b <> p) /\
  (exists ne, envs_of (ev s') = envs_of (ev s) ++ ne /\ forall a i t, In (a, i, t) ne -> a <> p) /\
  (forall q, exists na, asks s' q = asks s q ++ na /\ forall a, In a na -> dget (o_players (ask_seen a)) p = None).
Proof.
  intros W c s0 k s p n s' S D A Hn B. eapply gone_for_good; eassumption.
Qed.

Theorem C23_no_mission_never_leaves : forall W (c : ctx W) s0 k s p, started c s0 -> 0 < dt (g_param (c_cfg c)) -> after s0 k s ->
  In p (akeys (c_models c)) -> dget (g_missions (c_cfg c)) p = None -> active s p.
Proof.
  intros W c s0 k s p S D A. eapply no_mission_stays; eassumption.
Qed.

Example C23_ex : after start1 1 (nth_st start1 1) /\ active (nth_st start1 1) 1 /\ ~ active (nth_st start1 2) 1 /\
  after start1 6 (nth_st start1 6) /\ active (nth_st start1 6) 2 /\ active (nth_st start1 6) 3.
Proof.
  split; [apply after1; lia|]. split; [vm_compute; auto|]. split; [vm_compute; intuition discriminate|].
  split; [apply after1; lia|]. split; vm_compute; auto.
Qed.

(** ** C24 *)

Lemma init_run_err {W : world} (c : ctx W) m e : (forall p, In p (akeys (c_players c)) -> In p (akeys (c_models c))) ->
  init_run c m = Err e -> user_raises W e.
Proof.
  intros K H. unfold init_run in H.
  apply rfold_err' with (P := fun s => akeys (c_players (cx s)) = akeys (c_players c) /\ c_models (cx s) = c_models c) in H.
  - destruct H as (p & s & [H1 H2] & Hp & He). unfold init_player in He. pose proof (K p Hp) as Hm.
    rewrite <- H1 in Hp. apply agetE_in in Hp as [a Ha]. rewrite Ha in He. rewrite H2 in He. apply agetE_in in Hm as [md Hm]. rewrite Hm in He.
    destruct (agent_init _ _ _ _ _ _ _) as [a'|e'] eqn:Ei; [discriminate|]. injection He as <-. eapply ur_init; exact Ei.
  - auto.
  - intros p s s' [H1 H2] Hp Hs. apply init_player_ok in Hs as (a & a' & A1 & _ & ->). cbn. split; [|exact H2].
    rewrite keys_dset; [exact H1|]. eapply dget_Some_In; exact A1.
Qed.

(** A run that raises, raises what user code raised: no exception comes from
    the simulator's own bookkeeping (logs, dict lookups). *)
Theorem C24_only_user_code_raises : forall W (c : ctx W) m fuel e, valid_ctx c -> unused m -> 0 < dt (g_param (c_cfg c)) ->
  sensors_ok c -> query_ok (W := W) (g_scen (c_cfg c)) ->
  run fuel m c = Some (Err e) -> user_raises W e.
Proof.
  intros W c m fuel e V U D Sn Q H. unfold run in H. destruct (valid_ctx_keys _ V) as [K1 K2].
  destruct (init_run c m) as [s0|e0] eqn:E0.
  - assert (S : started c s0) by (split; [exact V|eauto]).
    destruct (loop fuel s0) as [[s|e1]|] eqn:El; [| |discriminate].
    + exfalso. destruct (loop_after s0 fuel 0 s0 s (after_0 s0) El) as (k & A & _).
      pose proof (started_facts _ _ _ _ S D A) as F. destruct (write_logs_ok s) as (sf & E & _).
      * exact (fa_inv _ _ _ _ F).
      * rewrite (fa_models _ _ _ _ F). apply V.
      * congruence.
    + injection H as ->. destruct (loop_after_err s0 fuel 0 s0 e (after_0 s0) El) as (k & s & A & T & Hs).
      pose proof (started_facts _ _ _ _ S D A) as F. eapply step_err; [exact (fa_inv _ _ _ _ F)| | | |exact Hs].
      * rewrite (fa_param _ _ _ _ F). exact D.
      * intros p Hp. destruct Sn as [Sn|Sn]; [left; rewrite (fa_cfg _ _ _ _ F); exact Sn|right].
        apply (fa_sens _ _ _ _ F), Sn, K1. rewrite <- (fa_models _ _ _ _ F). apply (i_am _ (fa_inv _ _ _ _ F)). exact Hp.
      * rewrite (fa_cfg _ _ _ _ F). exact Q.
  - injection H as <-. eapply init_run_err; [|exact E0]. intros p Hp. apply K1. exact Hp.
Qed.

(** A run that returns has written, for every model of the context, a log whose
    samples are those recorded during the loop. *)
Theorem C24_every_player_gets_its_log : forall W (c : ctx W) m fuel sf, valid_ctx c -> unused m -> 0 < dt (g_param (c_cfg c)) ->
  run fuel m c = Some (Ok sf) ->
  exists s0 k s, started c s0 /\ after s0 k s /\ c_term (cx s) = true /\ (forall i si, (i < k)%nat -> after s0 i si -> c_term (cx si) = false) /\
  ev sf = ev s /\ time sf = time s /\
  forall p, In p (akeys (c_models c)) -> exists pl, dget (c_log (cx sf)) p = Some pl /\
    iter (pl_states pl) = states_log s p /\ iter (pl_commands pl) = commands_log s p /\
    iter (pl_extra pl) = extra_log s p /\ iter (pl_info pl) = info_log s p /\
    StronglySorted Qclt (tss (pl_states pl)) /\ StronglySorted Qclt (tss (pl_commands pl)) /\
    StronglySorted Qclt (tss (pl_extra pl)) /\ StronglySorted Qclt (tss (pl_info pl)).
Proof.
  intros W c m fuel sf V U D H. unfold run in H. destruct (init_run c m) as [s0|] eqn:E0; [|discriminate].
  assert (S : started c s0) by (split; [exact V|eauto]).
  destruct (loop fuel s0) as [[s|e1]|] eqn:El; [|discriminate|discriminate].
  destruct (loop_after s0 fuel 0 s0 s (after_0 s0) El) as (k & A & T). exists s0, k, s.
  pose proof (started_facts _ _ _ _ S D A) as F. destruct (write_logs_ok s) as (sf' & E & E1 & E2 & (lg & E3) & E4).
  { exact (fa_inv _ _ _ _ F). }
  { rewrite (fa_models _ _ _ _ F). apply V. }
  assert (sf' = sf) by congruence. subst sf'.
  split; [exact S|]. split; [exact A|]. split; [exact T|]. split; [intros i si Hi; eapply after_live; eassumption|]. split; [exact E1|]. split; [unfold time; rewrite E3; reflexivity|].
  intros p Hp. rewrite <- (fa_models _ _ _ _ F) in Hp. destruct (E4 p Hp) as (pl & L & (M1 & M2 & M3 & M4 & [_ M5] & [_ M6] & [_ M7] & [_ M8])).
  exists pl. repeat (split; [assumption|]). exact M8.
Qed.

Example C24_ex : exists s pl, run 7 new_simulator ctx1 = Some (Ok s) /\ dget (c_log (cx s)) 1%nat = Some pl /\
  tss (pl_commands pl) = [qz 0] /\ tss (pl_states pl) = [qz 0; qf 1 2; qz 1].
Proof.
  destruct (get_ok (fun s => match dget (c_log (cx s)) 1%nat with Some pl => qs_eqb (tss (pl_commands pl)) [0#1]%Q && qs_eqb (tss (pl_states pl)) [0#1; 1#2; 1#1]%Q | _ => false end)
    (run 7 new_simulator ctx1)) as (s & E1 & E2); [vm_compute; reflexivity|].
  apply get_some in E2 as (pl & E2 & E3). apply andb_true_iff in E3 as [E3 E4]. apply qs_eqb_eq in E3. apply qs_eqb_eq in E4.
  exists s, pl. split; [exact E1|]. split; [exact E2|]. split; [exact E3|exact E4].
Qed.

(** ** C25 *)

(** Each request comes from an iteration in which the player was active; its
    sensor was given the snapshot of all active players' states before anybody
    moved in that iteration, stamped with the current time, and the agent got
    what the sensor returned. *)
Theorem C25_observations_are_snapshots : forall W (c : ctx W) s0 k s p a, started c s0 -> 0 < dt (g_param (c_cfg c)) -> after s0 k s ->
  In a (asks s p) -> exists i si f f' ag ag', (i < k)%nat /\ after s0 i si /\ active si p /\ ask_t a = time si /\
     snapshot si (ask_seen a) /\ get_sensor (cx si) p = Ok f /\
     sense W f (g_scen (c_cfg c)) (ask_seen a) p = Ok (f', ask_given a) /\
     dget (c_players (cx si)) p = Some ag /\ agent_cmds W ag (ask_given a) = Ok (ag', ask_cmd a).
Proof.
  intros W c s0 k s p a S D A Ha. destruct (ai_seen _ _ _ _ (ainv_holds _ _ S D _ _ A) p a Ha) as
    (i & si & si' & f & f' & ag & ag' & H1 & H2 & H3 & H4 & H5 & H6 & H7 & H8 & H9 & H10).
  exists i, si, f, f', ag, ag'. repeat (split; [assumption|]). exact H10.
Qed.

Lemma assoc_eq {V} (d d' : list (player * V)) : NoDup (akeys d) -> akeys d = akeys d' -> (forall p, dget d p = dget d' p) -> d = d'.
Proof.
  revert d'. unfold akeys. induction d as [|[k v] r IH]; intros [|[k' v'] r'] N E H; try discriminate; [reflexivity|].
  cbn [map fst] in E. injection E as <- E. cbn [map fst] in N. inversion N as [|? ? N1 N2]; subst.
  pose proof (H k) as Hk. rewrite !dget_cons, Nat.eqb_refl in Hk. injection Hk as <-. f_equal. apply IH; [exact N2|exact E|].
  intro p. pose proof (H p) as Hp. rewrite !dget_cons in Hp. destruct (Nat.eqb_spec k p) as [Ek|_]; [|exact Hp].
  rewrite <- Ek. rewrite (proj2 (dget_None r k) N1). symmetry. apply dget_None. change (~ In k (map fst r')). rewrite <- E. exact N1.
Qed.

Lemma snapshot_unique {W : world} (s : st W) o o' : NoDup (akeys (c_players (cx s))) -> snapshot s o -> snapshot s o' -> o = o'.
Proof.
  intros N (A1 & A2 & A3) (B1 & B2 & B3). destruct o as [op ot], o' as [op' ot']. cbn [o_players o_time] in *. f_equal; [|congruence].
  apply assoc_eq; [rewrite A2; exact N|congruence|]. intro p. rewrite A3, B3. reflexivity.
Qed.

(** All players asked at one time are shown the same full observation. *)
Theorem C25_same_view_for_all : forall W (c : ctx W) s0 k s p q a b, started c s0 -> 0 < dt (g_param (c_cfg c)) -> after s0 k s ->
  In a (asks s p) -> In b (asks s q) -> ask_t a = ask_t b -> ask_seen a = ask_seen b.
Proof.
  intros W c s0 k s p q a b S D A Ha Hb E.
  destruct (C25_observations_are_snapshots W c s0 k s p a S D A Ha) as (i & si & f & f' & ag & ag' & _ & Ai & _ & Ti & Si & _).
  destruct (C25_observations_are_snapshots W c s0 k s q b S D A Hb) as (j & sj & g & g' & bg & bg' & _ & Aj & _ & Tj & Sj & _).
  assert (i = j).
  { rewrite Ti, Tj in E. rewrite (fa_time _ _ _ _ (started_facts _ _ _ _ S D Ai)), (fa_time _ _ _ _ (started_facts _ _ _ _ S D Aj)) in E.
    destruct (Nat.lt_trichotomy i j) as [L|[L|L]]; [exfalso|exact L|exfalso]; apply (grid_lt (c_time c) _ _ _ D) in L; rewrite E in L; exact (Qclt_not_eq _ _ L eq_refl). }
  subst j. rewrite <- (after_fun _ _ _ Ai _ Aj) in *. eapply snapshot_unique; [|exact Si|].
  - apply (i_nd _ (fa_inv _ _ _ _ (started_facts _ _ _ _ S D Aj))).
  - exact Sj.
Qed.

(** Later iterations never change what was delivered earlier. *)
Theorem C25_delivered_observations_are_final : forall W (c : ctx W) s0 k s n s' p, started c s0 -> 0 < dt (g_param (c_cfg c)) ->
  after s0 k s -> after s n s' -> exists later, asks s' p = asks s p ++ later.
Proof.
  intros W c s0 k s n s' p S D A B. induction B as [|n s1 s2 B IH T Hs]; [exists []; symmetry; apply app_nil_r|].
  destruct IH as [l IH]. pose proof (after_step _ _ _ _ _ S D (after_trans _ _ _ A _ _ B) Hs) as R.
  destruct (active_dec s1 p) as [Ha|Hn].
  - destruct (C22_asked_exactly_when_due W c s0 _ s1 s2 p S D (after_trans _ _ _ A _ _ B) T Hs) as [H1 H2].
    pose proof (asked_iff_due _ _ _ _ _ _ S D (after_trans _ _ _ A _ _ B) T R Ha) as Q. destruct (need_commands s1).
    + destruct (H1 Ha (proj2 Q eq_refl)) as (full & o & u & E). exists (l ++ [(time s1, full, o, u)]). rewrite E, IH, app_assoc. reflexivity.
    + exists l. rewrite <- IH. apply H2. intros [_ C]. apply Q in C. discriminate.
  - exists l. rewrite <- IH. apply (sr_inact _ _ R p Hn).
Qed.

Example C25_ex : exists a b, In a (asks (nth_st start1 5) 2) /\ In b (asks (nth_st start1 5) 3) /\ ask_t a = qz 1 /\ ask_t b = qz 1 /\
  akeys (o_players (ask_seen a)) = [2; 3]%nat /\ map (fun x => fst (snd x)) (o_players (ask_seen a)) = [qz 3; qf 7 2].
Proof.
  destruct (get_some (fun a => qeqb (ask_t (W := line) a) (qz 1) && nats_eqb (akeys (o_players (ask_seen a))) [2; 3]%nat &&
     qs_eqb (map (fun x => fst (snd x)) (o_players (ask_seen (W := line) a))) [3#1; 7#2]%Q) (nth_error (asks (nth_st start1 5) 2) 1)) as (a & Ea & H); [vm_compute; reflexivity|].
  destruct (get_some (fun a => qeqb (ask_t (W := line) a) (qz 1)) (nth_error (asks (nth_st start1 5) 3) 1)) as (b & Eb & Hb); [vm_compute; reflexivity|].
  apply andb_true_iff in H as [H H3]. apply andb_true_iff in H as [H1 H2]. apply qeqb_eq in H1. apply qeqb_eq in Hb. apply qs_eqb_eq in H3.
  exists a, b. split; [eapply nth_error_In; exact Ea|]. split; [eapply nth_error_In; exact Eb|]. split; [exact H1|]. split; [exact Hb|].
  split; [apply nats_eqb_eq; exact H2|exact H3].
Qed.

(** ** C26 *)

(** A context whose run has not been marked finished stops for one of the
    documented reasons, true of the context [run] leaves behind. *)
Theorem C26_stops_only_for_a_reason : forall W (c : ctx W) m fuel sf, valid_ctx c -> unused m -> 0 < dt (g_param (c_cfg c)) ->
  c_term c = false -> run fuel m c = Some (Ok sf) -> stop_reason (cx sf).
Proof.
  intros W c m fuel sf V U D T0 H. unfold run in H. destruct (init_run c m) as [s0|] eqn:E0; [|discriminate].
  assert (S : started c s0) by (split; [exact V|eauto]).
  destruct (loop fuel s0) as [[s|e1]|] eqn:El; [|discriminate|discriminate].
  destruct (loop_after s0 fuel 0 s0 s (after_0 s0) El) as (k & A & T).
  pose proof (started_facts _ _ _ _ S D A) as F. destruct (write_logs_ok s) as (sf' & E & E1 & E2 & (lg & E3) & E4).
  { exact (fa_inv _ _ _ _ F). }
  { rewrite (fa_models _ _ _ _ F). apply V. }
  assert (sf' = sf) by congruence. subst sf'.
  assert (R : stop_reason (cx s)).
  { inversion A as [|k0 s1 s2 A1 T1 Hs Ek]; subst.
    - apply init_run_ok in E0 as (Q1&Q2&Q3&Q4&Q5&Q6&Q7&_). congruence.
    - pose proof (after_step _ _ _ _ _ S D A1 Hs) as R. pose proof (sr_coll _ _ R) as C. rewrite T in C. destruct C as (C1 & C2 & _).
      apply (sr_term _ _ R) in T. rewrite <- C1, <- C2 in T. destruct (cx s); exact T. }
  rewrite E3. destruct R; [apply stop_time|eapply stop_collision|apply stop_empty|apply stop_missions]; eassumption.
Qed.

(** After every iteration the run is over iff one of the reasons holds (reports
    stamped with the current time, nonnegative time after collision). *)
Theorem C26_over_iff_reason : forall W (c : ctx W) s0 k s, started c s0 -> 0 < dt (g_param (c_cfg c)) ->
  reports_stamped W -> 0 <= after_collision (g_param (c_cfg c)) ->
  after s0 (S k) s -> (c_term (cx s) = true <-> stop_reason (cx s)).
Proof.
  intros W c s0 k s S D K P A. pose proof (started_facts _ _ _ _ S D A) as F. inversion A as [|k0 s1 s2 A1 T1 Hs Ek]; subst.
  pose proof (after_step _ _ _ _ _ S D A1 Hs) as R. pose proof (sr_coll _ _ R) as C. pose proof (sr_term _ _ R) as Q.
  destruct (c_term (cx s)) eqn:T.
  - split; [|reflexivity]. intros _. destruct C as (C1 & C2 & _). destruct Q as [Q _]. specialize (Q eq_refl). rewrite <- C1, <- C2 in Q. destruct (cx s); exact Q.
  - split; [discriminate|]. intro St. apply Q. destruct C as (np & ne & new & _ & _ & _ & _ & _ & _ & _ & C). destruct (C K) as [_ C1].
    destruct St as [H|f H1 H2|H|H1 H2]; [apply stop_time; exact H| |apply stop_empty; exact H|apply stop_missions; assumption].
    assert (Hf : c_first (cx s1) = Some f \/ f = time s).
    { rewrite C1 in H1. destruct new; [left; exact H1|]. unfold earlier in H1. destruct (c_first (cx s1)) as [f1|]; [|right; congruence].
      destruct (qltb (time s) f1); [right; congruence|left; congruence]. }
    destruct Hf as [Hf| ->]; [eapply stop_collision; [exact Hf|exact H2]|].
    exfalso. rewrite (fa_cfg _ _ _ _ F) in H2. change (c_time (cx s)) with (time s) in H2. qlra.
Qed.

Example C26_ex : reports_stamped line /\ 0 <= after_collision (g_param (c_cfg ctx1)) /\ after start1 7 (nth_st start1 7) /\
  c_term (cx (nth_st start1 7)) = true /\ after start1 6 (nth_st start1 6) /\ c_term (cx (nth_st start1 6)) = false.
Proof.
  split; [split; [intros sc p q t a b r H; injection H as <-; reflexivity|intros p ob t m r H; injection H as <-; reflexivity]|].
  split; [vm_compute; discriminate|]. split; [apply after1; lia|]. split; [vm_compute; reflexivity|]. split; [apply after1; lia|vm_compute; reflexivity].
Qed.

(** ** C27 *)

(** In an iteration that does not end the run, exactly the unordered pairs of
    distinct remaining players whose footprints intersect are resolved, each
    once; an iteration that ends the run resolves none. *)
Theorem C27_every_touching_pair_once : forall W (c : ctx W) s0 k s s', started c s0 -> 0 < dt (g_param (c_cfg c)) ->
  resolution_keeps_footprint W -> (forall f g, intersects W f g = intersects W g f) ->
  after s0 k s -> c_term (cx s) = false -> step s = Ok s' ->
  exists np, pairs_of (ev s') = pairs_of (ev s) ++ map (fun pq => (fst pq, snd pq, time s')) np /\
    NoDup np /\ (forall p q, In (p, q) np -> ~ In (q, p) np) /\
    (c_term (cx s') = true -> np = []) /\
    (c_term (cx s') = false -> forall p q, (In (p, q) np \/ In (q, p) np) <->
        p <> q /\ active s' p /\ active s' q /\ touches s' p q = true).
Proof.
  intros W c s0 k s s' S D K Sy A T Hs. pose proof (after_step _ _ _ _ _ S D A Hs) as R. pose proof (sr_coll _ _ R) as C.
  destruct (c_term (cx s')).
  - destruct C as (_ & _ & C & _). exists []. rewrite C, app_nil_r. split; [reflexivity|]. split; [constructor|]. split; [intros p q []|]. split; [reflexivity|discriminate].
  - destruct C as (np & ne & new & _ & _ & C1 & _ & _ & C2 & _). destruct (C2 K) as [C3 _]. exists np. split; [exact C1|].
    pose proof (sr_nodup _ _ R) as N. set (ps := akeys (c_players (cx s'))) in *.
    split; [rewrite C3; apply NoDup_filter, combinations2_NoDup; exact N|]. split.
    { intros p q H1 H2. rewrite C3 in H1, H2. apply filter_In in H1 as [H1 _]. apply filter_In in H2 as [H2 _].
      apply combinations2_In in H1 as (i & j & L1 & I1 & J1). apply combinations2_In in H2 as (i' & j' & L2 & I2 & J2).
      assert (i = j'). { eapply NoDup_nth_error; [exact N|apply nth_error_Some; congruence|congruence]. }
      assert (j = i'). { eapply NoDup_nth_error; [exact N|apply nth_error_Some; congruence|congruence]. } lia. }
    split; [discriminate|]. intros _ p q. rewrite C3, !filter_In. cbn [fst snd].
    assert (Ts : touches s' q p = touches s' p q).
    { unfold touches. destruct (model_of s' p), (model_of s' q); try reflexivity. apply Sy. }
    rewrite Ts. unfold active. fold ps. split.
    + intros [[H1 H2]|[H1 H2]]; pose proof (combinations2_neq _ N _ _ H1) as Ne; apply combinations2_In in H1 as (i & j & _ & I1 & J1);
        apply nth_error_In in I1; apply nth_error_In in J1; repeat split; try assumption; congruence.
    + intros (H1 & H2 & H3 & H4). apply In_nth_error in H2 as [i Hi]. apply In_nth_error in H3 as [j Hj].
      destruct (Nat.lt_trichotomy i j) as [L|[L|L]].
      * left. split; [|exact H4]. apply combinations2_In. eauto 6.
      * subst j. congruence.
      * right. split; [|exact H4]. apply combinations2_In. eauto 6.
Qed.

(** The reports of the context are those it started with followed by one per
    collision call that yielded a report (or an empty one naming the players if
    the geometry failed), in call order. *)
Theorem C27_reports_are_the_calls : forall W (c : ctx W) s0 k s, started c s0 -> 0 < dt (g_param (c_cfg c)) -> after s0 k s ->
  c_reports (cx s) = c_reports c ++ expected_reports (ev s).
Proof.
  intros W c s0 k s S D. apply reports_expected; assumption.
Qed.

(** Reports are in time order, within the simulated time; first_collision_ts is
    the time of the earliest one. *)
Theorem C27_reports_in_time_order : forall W (c : ctx W) s0 k s, started c s0 -> 0 < dt (g_param (c_cfg c)) -> reports_stamped W ->
  c_reports c = [] -> c_first c = None -> after s0 k s ->
  StronglySorted (fun r r' : report (w_D W) => r_time r <= r_time r') (c_reports (cx s)) /\
  (forall r, In r (c_reports (cx s)) -> c_time c < r_time r /\ r_time r <= time s) /\
  (c_reports (cx s) = [] -> c_first (cx s) = None) /\
  (c_reports (cx s) <> [] -> exists r, In r (c_reports (cx s)) /\ c_first (cx s) = Some (r_time r) /\
     forall r', In r' (c_reports (cx s)) -> r_time r <= r_time r').
Proof.
  intros W c s0 k s S D K E1 E2 A. destruct (reports_ordered c s0 S D K E1 E2 k s A) as (H1 & H2 & H3). split; [exact H1|]. split; [exact H2|].
  destruct (c_reports (cx s)) as [|r l]; cbn [earliest] in H3.
  - split; [intros _; exact H3|congruence].
  - split; [discriminate|]. intros _. exists r. split; [left; reflexivity|]. exact H3.
Qed.

Example C27_ex : resolution_keeps_footprint line /\ (forall f g, intersects line f g = intersects line g f) /\
  after start1 3 (nth_st start1 3) /\
  map (fun a => (fst a, this (snd a))) (pairs_of (ev (nth_st start1 3))) = [((2%nat, 3%nat), 1#2); ((2%nat, 3%nat), 1#1); ((2%nat, 3%nat), 3#2)]%Q /\
  option_map this (c_first (cx (nth_st start1 3))) = Some (1#2)%Q /\ length (c_reports (cx (nth_st start1 3))) = 5%nat.
Proof.
  split; [split; [intros sc p q t a b a' b' H; injection H as <- <-; auto|reflexivity]|].
  split; [intros f g; apply near_sym|].
  split; [apply after1; lia|]. split; [vm_compute; reflexivity|]. split; vm_compute; reflexivity.
Qed.

(** ** C28 *)

(** In an iteration that does not end the run, every remaining player is
    resolved against exactly the obstacles the spatial index returns for it, in
    order, before the player-player checks. *)
Theorem C28_every_environment_candidate : forall W (c : ctx W) s0 k s s', started c s0 -> 0 < dt (g_param (c_cfg c)) ->
  resolution_keeps_footprint W -> after s0 k s -> c_term (cx s) = false -> step s = Ok s' ->
  envs_of (ev s') = envs_of (ev s) ++
    (if c_term (cx s') then []
     else flat_map (fun p => map (fun i => (p, i, time s')) (env_candidates s' p)) (akeys (c_players (cx s')))).
Proof.
  intros W c s0 k s s' S D K A T Hs. pose proof (after_step _ _ _ _ _ S D A Hs) as R. pose proof (sr_coll _ _ R) as C.
  destruct (c_term (cx s')).
  - destruct C as (_ & _ & _ & C & _). rewrite C, app_nil_r. reflexivity.
  - destruct C as (np & ne & new & _ & _ & _ & C1 & _ & C2 & _). destruct (C2 K) as [_ C3]. rewrite C1, C3. reflexivity.
Qed.

(** Only players still active are checked, at the current time (no assumption
    on the resolution). *)
Theorem C28_only_active_players : forall W (c : ctx W) s0 k s s' p i t, started c s0 -> 0 < dt (g_param (c_cfg c)) ->
  after s0 k s -> c_term (cx s) = false -> step s = Ok s' ->
  In (p, i, t) (envs_of (ev s')) -> In (p, i, t) (envs_of (ev s)) \/ (active s' p /\ t = time s' /\ c_term (cx s') = false).
Proof.
  intros W c s0 k s s' p i t S D A T Hs Hi. pose proof (after_step _ _ _ _ _ S D A Hs) as R. pose proof (sr_coll _ _ R) as C.
  destruct (c_term (cx s')).
  - destruct C as (_ & _ & _ & C & _). rewrite C in Hi. auto.
  - destruct C as (np & ne & new & _ & _ & _ & C1 & _ & _ & C2 & _). rewrite C1 in Hi. apply in_app_iff in Hi as [Hi|Hi]; [auto|]. apply C2 in Hi. tauto.
Qed.

(** A moving obstacle's collisions with the environment leave no report; those
    of other players do (C27_reports_are_the_calls says which). *)
Theorem C28_moving_obstacles_not_reported : forall W p i t out (l : list (event W)),
  expected_reports (EEnv p i t true out :: l) = expected_reports l /\
  (forall r, expected_reports (EEnv p i t false (Ok (Some r)) :: l) = expected_reports l ++ [r]) /\
  (forall e, expected_reports (EEnv p i t false (Err e) :: l) = expected_reports l ++ [mkRep [p] t None]) /\
  expected_reports (EEnv p i t false (Ok None) :: l) = expected_reports l.
Proof.
  intros W p i t out l. unfold expected_reports. cbn [rev]. repeat split; intros; rewrite flat_map_app; cbn; try rewrite app_nil_r; try reflexivity.
  all: destruct out as [[]|]; try rewrite app_nil_r; reflexivity.
Qed.

Example C28_ex : map (fun a => (fst a, this (snd a))) (envs_of (ev (nth_st start1 3))) = [((2%nat, 0%nat), 3#2); ((3%nat, 0%nat), 3#2)]%Q.
Proof. vm_compute. reflexivity. Qed.

(** ** C29 *)

(** Simulator objects that never ran behave alike, whatever earlier simulators
    left in the class attributes they share. *)
Theorem C29_new_simulators_are_independent : forall W (c : ctx W) m m' fuel, valid_ctx c -> 0 < dt (g_param (c_cfg c)) -> unused m -> unused m' ->
  match run fuel m c, run fuel m' c with
  | None, None => True
  | Some (Ok s), Some (Ok s') => cx s = cx s' /\ ev s = ev s'
  | Some (Err e), Some (Err e') => e = e'
  | _, _ => False
  end.
Proof.
  intros W c m m' fuel V D U U'. apply run_independent; assumption.
Qed.

(** Reusing the same object is not equivalent to making a new one: the second
    run fails with KeyError on a fresh context that a new object handles. *)
Theorem C29_reuse_refuted : exists W (c c2 : ctx W) fuel sf sf2,
  valid_ctx c /\ valid_ctx c2 /\ c_term c2 = false /\
  run fuel new_simulator c = Some (Ok sf) /\
  run fuel (sm sf) c2 = Some (Err PyKeyError) /\ run fuel new_simulator c2 = Some (Ok sf2).
Proof.
  exists line, ctx1, ctx2, 7%nat.
  destruct (get_ok (fun s => match run 7 (sm s) ctx2 with Some (Err PyKeyError) => true | _ => false end) (run 7 new_simulator ctx1)) as (s & E1 & E2);
    [vm_compute; reflexivity|].
  apply get_keyerror in E2.
  destruct (get_ok (fun _ => true) (run 7 new_simulator ctx2)) as (s2 & E3 & _); [vm_compute; reflexivity|].
  exists s, s2. split; [apply started1|]. split; [split; [vm_compute; reflexivity|]; repeat split; cbn; repeat constructor; cbn; intuition congruence|].
  split; [reflexivity|]. split; [exact E1|]. split; [exact E2|exact E3].
Qed.

(** On the same context it silently never asks anybody: models are driven by
    the last commands of the first run and the command log is empty. *)
Theorem C29_reuse_silent_refuted : exists W (c : ctx W) fuel sf sf2 p,
  valid_ctx c /\ In p (akeys (c_models c)) /\
  run fuel new_simulator c = Some (Ok sf) /\ run fuel (sm sf) c = Some (Ok sf2) /\
  asks sf2 p = [] /\ moves sf2 p <> [] /\ asks sf p <> [].
Proof.
  exists line, ctx1, 7%nat.
  destruct (get_ok (fun s => negb (length (asks s 2) =? 0)%nat && match run 7 (sm s) ctx1 with Some (Ok s2) =>
     (length (asks s2 2) =? 0)%nat && negb (length (moves s2 2) =? 0)%nat | _ => false end) (run 7 new_simulator ctx1)) as (s & E1 & E2);
    [vm_compute; reflexivity|].
  apply andb_true_iff in E2 as [E2 E3]. apply get_ok in E3 as (s2 & E3 & E4). apply andb_true_iff in E4 as [E4 E5].
  apply negb_true_iff, Nat.eqb_neq in E2. apply negb_true_iff, Nat.eqb_neq in E5. apply Nat.eqb_eq in E4.
  exists s, s2, 2%nat. split; [apply started1|]. split; [right; left; reflexivity|]. split; [exact E1|]. split; [exact E3|].
  split; [apply length_zero_iff_nil; exact E4|].
  split; [intro C; apply E5; rewrite C; reflexivity|intro C; apply E2; rewrite C; reflexivity].
Qed.

Example C29_ex : exists m : simulator line, unused m /\ s_cmds m <> [] /\ valid_ctx ctx1.
Proof. exists (mkSim (W := line) (mkObs [] 0) None [(1%nat, qz 5)] []). split; [reflexivity|]. split; [discriminate|apply started1]. Qed.

(** ** C30 *)

Lemma fold_qmin_spec l : forall x, (fold_left qmin l x = x \/ In (fold_left qmin l x) l) /\ fold_left qmin l x <= x /\ forall y, In y l -> fold_left qmin l x <= y.
Proof.
  induction l as [|a r IH]; intro x; cbn [fold_left]; [split; [left; reflexivity|split; [apply Qcle_refl|intros y []]]|].
  destruct (IH (qmin x a)) as (H1 & H2 & H3). unfold qmin in *. destruct (qltb_spec a x) as [L|L].
  - split; [destruct H1 as [H1|H1]; [right; left; congruence|right; right; exact H1]|]. split; [qlra|]. intros y [<-|Hy]; [exact H2|apply H3; exact Hy].
  - split; [destruct H1 as [H1|H1]; [left; exact H1|right; right; exact H1]|]. split; [exact H2|]. intros y [<-|Hy]; [qlra|apply H3; exact Hy].
Qed.

Lemma fold_qmax_spec l : forall x, (fold_left qmax l x = x \/ In (fold_left qmax l x) l) /\ x <= fold_left qmax l x /\ forall y, In y l -> y <= fold_left qmax l x.
Proof.
  induction l as [|a r IH]; intro x; cbn [fold_left]; [split; [left; reflexivity|split; [apply Qcle_refl|intros y []]]|].
  destruct (IH (qmax x a)) as (H1 & H2 & H3). unfold qmax in *. destruct (qltb_spec x a) as [L|L].
  - split; [destruct H1 as [H1|H1]; [right; left; congruence|right; right; exact H1]|]. split; [qlra|]. intros y [<-|Hy]; [exact H2|apply H3; exact Hy].
  - split; [destruct H1 as [H1|H1]; [left; exact H1|right; right; exact H1]|]. split; [exact H2|]. intros y [<-|Hy]; [qlra|apply H3; exact Hy].
Qed.

Lemma rmapM_In {A B} (f : A -> result B) l ys : rmapM f l = Ok ys -> (forall y, In y ys -> exists x, In x l /\ f x = Ok y) /\ (forall x, In x l -> exists y, In y ys /\ f x = Ok y).
Proof.
  revert ys. induction l as [|a r IH]; intros ys H; cbn in H.
  - injection H as <-. split; intros ? [].
  - destruct (f a) as [b|] eqn:E; [|discriminate]. destruct (rmapM f r) as [bs|]; [|discriminate]. injection H as <-. destruct (IH bs eq_refl) as [H1 H2]. split.
    + intros y [<-|Hy]; [exists a; split; [left; reflexivity|exact E]|]. destruct (H1 y Hy) as (x & ? & ?). exists x. split; [right; assumption|assumption].
    + intros x [<-|Hx]; [exists b; split; [left; reflexivity|exact E]|]. destruct (H2 x Hx) as (y & ? & ?). exists y. split; [right; assumption|assumption].
Qed.

Lemma start_least {X} (s : seq X) t : WF s -> get_start s = Ok t -> In t (tss s) /\ forall u, In u (tss s) -> t <= u.
Proof.
  intros [_ I] H. apply get_start_nth in H. split; [eapply nth_error_In; exact H|]. intros u Hu. apply In_nth_error in Hu as [i Hi].
  eapply Inc_le_nth; [exact I|exact H|exact Hi|lia].
Qed.

Lemma end_greatest {X} (s : seq X) t : WF s -> get_end s = Ok t -> In t (tss s) /\ forall u, In u (tss s) -> u <= t.
Proof.
  intros [_ I] H. apply get_end_nth in H. split; [eapply nth_error_In; exact H|]. intros u Hu. apply In_nth_error in Hu as [i Hi].
  eapply Inc_le_nth; [exact I|exact Hi|exact H|]. assert (i < length (tss s))%nat by (apply nth_error_Some; congruence). lia.
Qed.

(** get_init_time / get_last_time: defined iff there is at least one log and no
    state log is empty; then the least / greatest logged time. *)
Theorem C30_init_time_is_least : forall W (l : list (player * plog W)),
  (forall p pl, In (p, pl) l -> obtainable (pl_states pl)) ->
  ((exists t, simlog_init_time l = Ok t) <-> l <> [] /\ forall p pl, In (p, pl) l -> tss (pl_states pl) <> []) /\
  forall t, simlog_init_time l = Ok t ->
    (exists p pl, In (p, pl) l /\ In t (tss (pl_states pl))) /\ (forall p pl u, In (p, pl) l -> In u (tss (pl_states pl)) -> t <= u).
Proof.
  intros W l O. unfold simlog_init_time. split.
  - split.
    + intros [t H]. destruct (rmapM _ l) as [ts|] eqn:E; [|discriminate]. destruct (rmapM_In _ _ _ E) as [H1 H2]. split.
      * intros ->. cbn in E. injection E as <-. discriminate.
      * intros p pl Hp C. destruct (H2 _ Hp) as (y & _ & Hy). cbn in Hy. unfold get_start in Hy. rewrite C in Hy. discriminate.
    + intros [N H]. destruct (rmapM_total (fun pl : player * plog W => get_start (pl_states (snd pl))) l) as [ts E].
      { intros [p pl] Hp. specialize (H p pl Hp). cbn. unfold get_start. destruct (tss (pl_states pl)) as [|t r]; [contradiction|eauto]. }
      rewrite E. destruct l as [|[p pl] r]; [contradiction|]. destruct (rmapM_In _ _ _ E) as [_ H2].
      destruct (H2 _ (or_introl eq_refl)) as (y & Hy & _). destruct ts; [destruct Hy|]. eexists; reflexivity.
  - intros t H. destruct (rmapM _ l) as [ts|] eqn:E; [|discriminate]. destruct (rmapM_In _ _ _ E) as [H1 H2].
    destruct ts as [|x r]; [discriminate|]. injection H as <-. destruct (fold_qmin_spec r x) as (F1 & F2 & F3).
    assert (In (fold_left qmin r x) (x :: r)) by (destruct F1 as [F1|F1]; [left; congruence|right; exact F1]).
    split.
    + destruct (H1 _ H) as ([p pl] & Hp & Hs). exists p, pl. split; [exact Hp|]. apply (start_least _ _ (obtainable_WF _ _ (O _ _ Hp)) Hs).
    + intros p pl u Hp Hu. destruct (H2 _ Hp) as (y & Hy & Hs). cbn in Hs. destruct (start_least _ _ (obtainable_WF _ _ (O _ _ Hp)) Hs) as [_ L].
      eapply Qcle_trans; [|apply L; exact Hu]. destruct Hy as [<-|Hy]; [exact F2|apply F3; exact Hy].
Qed.

Theorem C30_last_time_is_greatest : forall W (l : list (player * plog W)),
  (forall p pl, In (p, pl) l -> obtainable (pl_states pl)) ->
  ((exists t, simlog_last_time l = Ok t) <-> l <> [] /\ forall p pl, In (p, pl) l -> tss (pl_states pl) <> []) /\
  forall t, simlog_last_time l = Ok t ->
    (exists p pl, In (p, pl) l /\ In t (tss (pl_states pl))) /\ (forall p pl u, In (p, pl) l -> In u (tss (pl_states pl)) -> u <= t).
Proof.
  intros W l O. unfold simlog_last_time. split.
  - split.
    + intros [t H]. destruct (rmapM _ l) as [ts|] eqn:E; [|discriminate]. destruct (rmapM_In _ _ _ E) as [H1 H2]. split.
      * intros ->. cbn in E. injection E as <-. discriminate.
      * intros p pl Hp C. destruct (H2 _ Hp) as (y & _ & Hy). cbn in Hy. unfold get_end in Hy. rewrite C in Hy. discriminate.
    + intros [N H]. destruct (rmapM_total (fun pl : player * plog W => get_end (pl_states (snd pl))) l) as [ts E].
      { intros [p pl] Hp. specialize (H p pl Hp). cbn. unfold get_end. destruct (rev (tss (pl_states pl))) as [|t r] eqn:Er; [|eauto].
        apply (proj1 (rev_nil_iff _)) in Er. contradiction. }
      rewrite E. destruct l as [|[p pl] r]; [contradiction|]. destruct (rmapM_In _ _ _ E) as [_ H2].
      destruct (H2 _ (or_introl eq_refl)) as (y & Hy & _). destruct ts; [destruct Hy|]. eexists; reflexivity.
  - intros t H. destruct (rmapM _ l) as [ts|] eqn:E; [|discriminate]. destruct (rmapM_In _ _ _ E) as [H1 H2].
    destruct ts as [|x r]; [discriminate|]. injection H as <-. destruct (fold_qmax_spec r x) as (F1 & F2 & F3).
    assert (In (fold_left qmax r x) (x :: r)) by (destruct F1 as [F1|F1]; [left; congruence|right; exact F1]).
    split.
    + destruct (H1 _ H) as ([p pl] & Hp & Hs). exists p, pl. split; [exact Hp|]. apply (end_greatest _ _ (obtainable_WF _ _ (O _ _ Hp)) Hs).
    + intros p pl u Hp Hu. destruct (H2 _ Hp) as (y & Hy & Hs). cbn in Hs. destruct (end_greatest _ _ (obtainable_WF _ _ (O _ _ Hp)) Hs) as [_ L].
      eapply Qcle_trans; [apply L; exact Hu|]. destruct Hy as [<-|Hy]; [exact F2|apply F3; exact Hy].
Qed.

(** SimLog.at_interp: one entry per player, in order, with the interpolated
    state, the latest command and computation time at or before [t], and the
    latest extra if there is one. *)
Theorem C30_at_interp_contract : forall W mulX addX (l : list (player * plog W)) t r,
  (forall p pl, In (p, pl) l -> obtainable (pl_states pl) /\ obtainable (pl_commands pl) /\ obtainable (pl_extra pl) /\ obtainable (pl_info pl)) ->
  simlog_at_interp mulX addX l t = Ok r ->
  Forall2 (fun ppl pe => fst pe = fst ppl /\
    interp_rel mulX addX (pl_states (snd ppl)) t (le_state (snd pe)) /\
    is_prev_sample (pl_commands (snd ppl)) t (le_commands (snd pe)) /\
    is_prev_sample (pl_info (snd ppl)) t (le_info (snd pe)) /\
    match le_extra (snd pe) with
    | Some x => is_prev_sample (pl_extra (snd ppl)) t x
    | None => forall u, In u (tss (pl_extra (snd ppl))) -> t < u
    end) l r.
Proof.
  intros W mulX addX l t r O. unfold simlog_at_interp. revert r. induction l as [|[p pl] rest IH]; intros r H; cbn [rmapM] in H.
  - injection H as <-. constructor.
  - destruct (plog_at_interp mulX addX pl t) as [e|] eqn:E; [|discriminate]. destruct (rmapM _ rest) as [bs|]; [|discriminate]. injection H as <-.
    constructor; [|apply IH; [intros q ql Hq; apply (O q ql); right; exact Hq|reflexivity]].
    destruct (O p pl (or_introl eq_refl)) as (O1 & O2 & O3 & O4). cbn [fst snd]. split; [reflexivity|].
    unfold plog_at_interp in E.
    destruct (match at_or_previous (pl_extra pl) t with Ok x => Ok (Some x) | Err UndefinedAtTime | Err ZValueError => Ok None | Err e => Err e end)
      as [ex|] eqn:Ex; [|discriminate].
    destruct (at_interp mulX addX (pl_states pl) t) as [x|] eqn:E1; [|discriminate].
    destruct (at_or_previous (pl_commands pl) t) as [u|] eqn:E2; [|discriminate].
    destruct (at_or_previous (pl_info pl) t) as [i|] eqn:E3; [|discriminate]. injection E as <-. cbn [le_state le_commands le_info le_extra].
    split.
    { assert (N : tss (pl_states pl) <> []) by (intro C; unfold at_interp, get_start in E1; rewrite C in E1; discriminate).
      destruct (at_interp_spec mulX addX _ t (obtainable_WF _ _ O1) N) as (v & Ev & Rv). congruence. }
    split; [apply (aop_ok _ _ _ (obtainable_WF _ _ O2)); exact E2|]. split; [apply (aop_ok _ _ _ (obtainable_WF _ _ O4)); exact E3|].
    destruct (at_or_previous (pl_extra pl) t) as [y|err] eqn:E4.
    + injection Ex as <-. apply (aop_ok _ _ _ (obtainable_WF _ _ O3)); exact E4.
    + assert (ex = None) by (destruct err; congruence). subst ex. intros v Hv. pose proof (obtainable_WF _ _ O3) as WX. pose proof (aop_spec _ t WX) as Sp.
      destruct (tss (pl_extra pl)) as [|t0 ts] eqn:Et; [destruct Hv|]. destruct (qltb_spec t t0) as [L|L].
      * destruct WX as [_ I]. rewrite Et in I. inversion I as [|? ? I1 I2]; subst. destruct Hv as [<-|Hv]; [exact L|]. rewrite Forall_forall in I2. eapply Qclt_trans; [exact L|apply I2; exact Hv].
      * destruct Sp as (w & Sp & _). congruence.
Qed.

(** It is defined for every [t] at or after the first command and computation
    time of every player. *)
Theorem C30_at_interp_defined : forall W mulX addX (l : list (player * plog W)) t,
  (forall p pl, In (p, pl) l -> obtainable (pl_states pl) /\ obtainable (pl_commands pl) /\ obtainable (pl_extra pl) /\ obtainable (pl_info pl)) ->
  (forall p pl, In (p, pl) l -> tss (pl_states pl) <> [] /\ (exists u, In u (tss (pl_commands pl)) /\ u <= t) /\ (exists u, In u (tss (pl_info pl)) /\ u <= t)) ->
  exists r, simlog_at_interp mulX addX l t = Ok r.
Proof.
  intros W mulX addX l t O H. unfold simlog_at_interp. apply rmapM_total. intros [p pl] Hp.
  destruct (O p pl Hp) as (O1 & O2 & O3 & O4). destruct (H p pl Hp) as (H1 & (u & U1 & U2) & (v & V1 & V2)).
  assert (G : forall X (s : seq X) u, obtainable s -> In u (tss s) -> u <= t -> exists x, at_or_previous s t = Ok x).
  { intros X s w Os Hu Hle. pose proof (obtainable_WF _ _ Os) as WX. pose proof (aop_spec s t WX) as Sp. destruct (tss s) as [|t0 ts] eqn:Et; [destruct Hu|].
    destruct (qltb_spec t t0) as [L|L]; [exfalso|destruct Sp as (x & Sp & _); eauto].
    destruct WX as [_ I]. rewrite Et in I. inversion I as [|? ? I1 I2]; subst. destruct Hu as [<-|Hu]; [qlra|]. rewrite Forall_forall in I2. specialize (I2 _ Hu). qlra. }
  destruct (G _ _ _ O2 U1 U2) as [cu Ec]. destruct (G _ _ _ O4 V1 V2) as [iv Ei].
  destruct (at_interp_spec mulX addX _ t (obtainable_WF _ _ O1) H1) as (x & Ex & _).
  unfold plog_at_interp. rewrite Ec, Ei, Ex. pose proof (aop_spec _ t (obtainable_WF _ _ O3)) as Sp.
  destruct (tss (pl_extra pl)) as [|t0 ts].
  - rewrite Sp. eauto.
  - destruct (qltb t t0); [rewrite Sp; eauto|]. destruct Sp as (y & Sp & _). rewrite Sp. eauto.
Qed.

(** Before a player's first command the query fails as undefined. *)
Theorem C30_undefined_before_first_command : forall W mulX addX p (pl : plog W) t,
  obtainable (pl_states pl) -> obtainable (pl_commands pl) -> obtainable (pl_extra pl) -> tss (pl_states pl) <> [] ->
  tss (pl_commands pl) <> [] -> (forall u, In u (tss (pl_commands pl)) -> t < u) ->
  simlog_at_interp mulX addX [(p, pl)] t = Err UndefinedAtTime.
Proof.
  intros W mulX addX p pl t O1 O2 O3 N1 N2 H. unfold simlog_at_interp. cbn [rmapM].
  destruct (at_interp_spec mulX addX _ t (obtainable_WF _ _ O1) N1) as (x & Ex & _).
  pose proof (aop_spec _ t (obtainable_WF _ _ O2)) as Sp. destruct (tss (pl_commands pl)) as [|t0 ts]; [contradiction|].
  destruct (qltb_spec t t0) as [L|L]; [|exfalso; specialize (H t0 (or_introl eq_refl)); qlra].
  unfold plog_at_interp. rewrite Sp, Ex. pose proof (aop_spec _ t (obtainable_WF _ _ O3)) as Sx.
  destruct (tss (pl_extra pl)) as [|t1 us].
  - rewrite Sx. reflexivity.
  - destruct (qltb t t1); [rewrite Sx; reflexivity|]. destruct Sx as (y & Sx & _). rewrite Sx. reflexivity.
Qed.

Example C30_ex : match run 7 new_simulator ctx1 with
  | Some (Ok s) =>
      match simlog_init_time (c_log (cx s)), simlog_last_time (c_log (cx s)), simlog_at_interp (W := line) Qcmult Qcplus (c_log (cx s)) (qf 5 4) with
      | Ok a, Ok b, Ok l => (this a = 0#1 /\ this b = 3#1 /\
          map (fun pe : nat * log_entry line => (fst pe, this (le_state (snd pe)), this (le_commands (snd pe)), le_extra (snd pe))) l
          = [(1%nat, 1#1, 1#1, Some 7%nat); (2%nat, 11#4, -1#1, Some 7%nat); (3%nat, 25#8, -3#2, Some 7%nat)])%Q
      | _, _, _ => False
      end
  | _ => False
  end.
Proof. vm_compute. repeat split. Qed.
