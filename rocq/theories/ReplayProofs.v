(** The two runs go in lockstep. *)
From Coq Require Import QArith Qcanon ZArith List Bool Arith Lia.
From Verif Require Import Base Num SeqModel SeqProofs SimulatorModel SimulatorSpec DictLemmas SimulatorProofs SimulatorProofs2 SimulatorProofs3 SimulatorProofs4 SimulatorProofs5 SimulatorProofs6 SimulatorProofs7 SimulatorProofs8 AgentModel ReplayModel ReplaySpec.
Import ListNotations.
Open Scope Qc_scope.

Section Rep.
Context {W : world} (cpu : player -> Qc -> w_I W) (plan : player -> seq (w_U W)).
Notation V := (replay_world W cpu).
Implicit Types (s : st W) (r : st V) (p : player).

Record llike (l : plogger W) (k : plogger V) : Prop := mkLlike {
  ll_states : @lg_states V k = lg_states l;
  ll_commands : @lg_commands V k = lg_commands l;
  ll_info : b_ts (@lg_info V k) = b_ts (lg_info l);
  ll_extra : @lg_extra V k = b_empty
}.

Record rep (K C : player -> Prop) (ob : Qc) s r : Prop := mkRep {
  rp_scen : g_scen (c_cfg (cx r)) = g_scen (c_cfg (cx s));
  rp_param : g_param (c_cfg (cx r)) = g_param (c_cfg (cx s));
  rp_miss : g_missions (c_cfg (cx r)) = g_missions (c_cfg (cx s));
  rp_def : g_sensors_default (c_cfg (cx r)) = true;
  rp_models : c_models (cx r) = c_models (cx s);
  rp_keys : akeys (c_players (cx r)) = akeys (c_players (cx s));
  rp_nd : NoDup (akeys (c_players (cx r)));
  rp_plan : forall p a, dget (c_players (cx r)) p = Some a -> a = plan p;
  rp_time : c_time (cx r) = c_time (cx s);
  rp_term : c_term (cx r) = c_term (cx s);
  rp_reports : c_reports (cx r) = c_reports (cx s);
  rp_first : c_first (cx r) = c_first (cx s);
  rp_last : s_last (sm r) = s_last (sm s);
  rp_ob : o_time (s_obs (sm r)) = ob;
  rp_cmds : forall p, C p -> dget (s_cmds (sm r)) p = dget (s_cmds (sm s)) p;
  rp_logs : forall p, K p -> exists l k, logger_of s p = Some l /\ logger_of r p = Some k /\ llike l k;
  rp_act : forall p, active s p -> K p
}.

(** The commands asked for so far are those of the plans. *)
Definition planned (K : player -> Prop) (l : list (event W)) : Prop :=
  forall p t full o u, K p -> In (EAsk p t full o u) l -> at_or_previous (plan p) t = Ok u.
Lemma planned_incl K l l' : incl l l' -> planned K l' -> planned K l.
Proof. intros I P p t full o u Kp H. exact (P p t full o u Kp (I _ H)). Qed.

Lemma rep_need K C ob s r : rep K C ob s r -> need_commands r = need_commands s.
Proof. intros []. unfold need_commands, param, time. rewrite rp_last0, rp_param0, rp_time0. reflexivity. Qed.

Lemma rep_mono (K C C' : player -> Prop) ob s r : rep K C ob s r -> (forall p, C' p -> C p) -> rep K C' ob s r.
Proof. intros [] H. constructor; auto. Qed.

Lemma wl K C ob s r p f g s1 : rep K C ob s r -> K p -> with_logger s p f = Ok s1 ->
  (forall l k l1, llike l k -> f l = Ok l1 -> exists k1, g k = Ok k1 /\ llike l1 k1) ->
  exists r1, with_logger r p g = Ok r1 /\ rep K C ob s1 r1.
Proof.
  intros R Kp H F. apply with_logger_ok in H as (l & l1 & L1 & L2 & ->).
  destruct (rp_logs _ _ _ _ _ R p Kp) as (l' & k & E1 & E2 & Lk). rewrite L1 in E1. injection E1 as <-. unfold logger_of in E2.
  destruct (F _ _ _ Lk L2) as (k1 & G1 & G2).
  eexists. split; [unfold with_logger, agetE; rewrite E2, G1; reflexivity|].
  destruct R. constructor; auto. intros q Kq. unfold logger_of. cbn [sm upd_sm set_logs s_logs]. rewrite !dget_dset.
  destruct (Nat.eqb_spec p q); [exists l1, k1; auto|]. exact (rp_logs0 q Kq).
Qed.

Lemma badd {X} (b : builder X) t v b1 : b_add b t v = Ok b1 -> forall Y (c : builder Y) w, b_ts c = b_ts b -> exists c1, b_add c t w = Ok c1 /\ b_ts c1 = b_ts b1.
Proof.
  unfold b_add. intros H Y c w E. rewrite E. destruct (rev (b_ts b)) as [|x ?].
  - injection H as <-. eexists; split; reflexivity.
  - destruct (qleb t x); [discriminate|]. injection H as <-. eexists; split; reflexivity.
Qed.

Lemma ll_log_state t x (l : plogger W) (k : plogger V) l1 : llike l k -> log_state t x l = Ok l1 -> exists k1, @log_state V t x k = Ok k1 /\ llike l1 k1.
Proof.
  intros [] H. unfold log_state in *. rewrite ll_states0. change (w_X V) with (w_X W). destruct (b_add (lg_states l) t x) as [b|]; [|discriminate]. injection H as <-.
  eexists. split; [reflexivity|]. constructor; auto.
Qed.
Lemma ll_log_command t x (l : plogger W) (k : plogger V) l1 : llike l k -> log_command t x l = Ok l1 -> exists k1, @log_command V t x k = Ok k1 /\ llike l1 k1.
Proof.
  intros [] H. unfold log_command in *. rewrite ll_commands0. change (w_U V) with (w_U W). destruct (b_add (lg_commands l) t x) as [b|]; [|discriminate]. injection H as <-.
  eexists. split; [reflexivity|]. constructor; auto.
Qed.
Lemma ll_log_info t x y (l : plogger W) (k : plogger V) l1 : llike l k -> log_info t x l = Ok l1 -> exists k1, @log_info V t y k = Ok k1 /\ llike l1 k1.
Proof.
  intros [] H. unfold log_info in *. destruct (b_add (lg_info l) t x) as [b|] eqn:E; [|discriminate]. injection H as <-.
  destruct (badd _ _ _ _ E _ (@lg_info V k) y ll_info0) as (c1 & E1 & E2). rewrite E1.
  eexists. split; [reflexivity|]. constructor; auto.
Qed.
Lemma ll_log_extra t x (l : plogger W) (k : plogger V) l1 : llike l k -> log_extra t x l = Ok l1 -> llike l1 k.
Proof. intros [] H. unfold log_extra in *. destruct (b_add (lg_extra l) t x) as [b|] eqn:E; [|discriminate]. injection H as <-. constructor; auto. Qed.

(** ** update *)
Lemma ask_rep K C s r p t s1 : rep K C t s r -> active s p -> ask s p t = Ok s1 -> planned K (ev s1) ->
  exists r1, ask r p t = Ok r1 /\ rep K (fun q => C q \/ q = p) t s1 r1.
Proof.
  intros R Ap H P. assert (Kp := rp_act _ _ _ _ _ R p Ap). unfold ask in H.
  destruct (get_sensor (cx s) p) as [f|] eqn:E1; [|discriminate].
  destruct (sense W f _ _ p) as [[f' o]|] eqn:E2; [|discriminate].
  destruct (dgetE (c_players (cx s)) p) as [a|] eqn:E3; [|discriminate]. apply agetE_Ok in E3.
  destruct (agent_cmds W a o) as [[a' u]|] eqn:E4; [|discriminate]. cbv zeta in H.
  match type of H with context [with_logger ?x p (log_command t u)] => set (s2 := x) in H end.
  destruct (with_logger s2 p (log_command t u)) as [s3|] eqn:E5; [|discriminate].
  destruct (with_logger s3 p (log_info t (cpu_time W p t))) as [s4|] eqn:E6; [|discriminate].
  destruct (agent_extra W a') as [[a'' x]|] eqn:E7; [|discriminate].
  assert (Kr : In p (akeys (c_players (cx r)))) by (rewrite (rp_keys _ _ _ _ _ R); exact Ap).
  destruct (In_keys_dget _ _ Kr) as [pl Ep]. assert (Epl : pl = plan p) by (apply (rp_plan _ _ _ _ _ R); exact Ep).
  destruct (get_sensor (cx r) p) as [fr|] eqn:Es; [|unfold get_sensor in Es; rewrite (rp_def _ _ _ _ _ R) in Es; destruct (dget (c_sensors (cx r)) p); discriminate].
  assert (Hu : np_get_commands pl (s_obs (sm r)) = Ok u).
  { unfold np_get_commands. replace (o_time (s_obs (sm r))) with t by (symmetry; exact (rp_ob _ _ _ _ _ R)). rewrite Epl. apply (P p t (s_obs (sm s)) o u Kp).
    assert (Ev : ev s1 = ev s4). { destruct x as [v|]; [|injection H as <-; reflexivity]. apply with_logger_ev in H as [H _]. exact H. }
    rewrite Ev. apply with_logger_ev in E6 as [-> _]. apply with_logger_ev in E5 as [-> _]. left. reflexivity. }
  unfold ask. rewrite Es.
  change (sense V fr (g_scen (c_cfg (cx r))) (s_obs (sm r)) p) with (Ok (fr, s_obs (sm r))).
  unfold agetE. rewrite Ep.
  change (agent_cmds V pl (s_obs (sm r))) with (match np_get_commands pl (s_obs (sm r)) with Ok u => Ok (pl, u) | Err e => Err e end).
  rewrite Hu. cbv zeta.
  match goal with |- context [with_logger ?x p (log_command t u)] => set (r2 := x) end.
  assert (R2 : rep K (fun q => C q \/ q = p) t s2 r2).
  { assert (Ks : In p (akeys (c_players (cx s)))) by exact Ap. clear - R Ks Kr Ep Epl. destruct R. constructor; auto.
    - cbn [r2 s2 cx set_players set_sensors c_players]. rewrite !keys_dset; auto.
    - cbn [r2 cx set_players set_sensors c_players]. apply NoDup_dset. exact rp_nd0.
    - cbn [r2 s2 cx set_players set_sensors c_players]. intros q b. rewrite dget_dset. destruct (Nat.eqb_spec p q) as [<-|]; [congruence|apply rp_plan0].
    - cbn [r2 s2 sm set_cmds s_cmds]. intros q. rewrite !dget_dset. destruct (Nat.eqb_spec p q) as [->|]; [reflexivity|]. intros [Hq|Hq]; [apply rp_cmds0; exact Hq|congruence].
    - intros q. unfold active. cbn [r2 s2 cx set_players set_sensors c_players]. rewrite keys_dset by exact Ks. apply rp_act0. }
  destruct (wl _ _ _ _ _ _ _ (@log_command V t u) _ R2 Kp E5 (ll_log_command t u)) as (r3 & W3 & R3). rewrite W3.
  destruct (wl _ _ _ _ _ _ _ (@log_info V t (cpu_time V p t)) _ R3 Kp E6 (ll_log_info t _ _)) as (r4 & W4 & R4). rewrite W4.
  change (agent_extra V pl) with (Ok (pl, @None (w_E W))). eexists. split; [reflexivity|].
  match type of H with context [upd_cx s4 ?x] => set (s5 := upd_cx s4 x) in H end.
  match goal with |- rep _ _ _ _ ?x => set (r5 := x) end.
  assert (R5 : rep K (fun q => C q \/ q = p) t s5 r5).
  { assert (Ks : In p (akeys (c_players (cx s4)))). { apply with_logger_ev in E6 as [_ ->]. apply with_logger_ev in E5 as [_ ->]. cbn. apply In_keys_dset. auto. }
    assert (Kr4 : In p (akeys (c_players (cx r4)))) by (rewrite (rp_keys _ _ _ _ _ R4); exact Ks).
    clear - R4 Ks Kr4 Epl. destruct R4. constructor; auto.
    - cbn [r5 s5 cx upd_cx set_players c_players]. rewrite !keys_dset; auto.
    - cbn [r5 cx upd_cx set_players c_players]. apply NoDup_dset. exact rp_nd0.
    - cbn [r5 s5 cx upd_cx set_players c_players]. intros q b. rewrite dget_dset. destruct (Nat.eqb_spec p q) as [<-|]; [congruence|apply rp_plan0].
    - intros q. unfold active. cbn [r5 s5 cx upd_cx set_players c_players]. rewrite keys_dset by exact Ks. apply rp_act0. }
  destruct x as [v|]; [|injection H as <-; exact R5].
  apply with_logger_ok in H as (l & l1 & L1 & L2 & ->). destruct (rp_logs _ _ _ _ _ R5 p Kp) as (l' & k & G1 & G2 & Lk).
  rewrite L1 in G1. injection G1 as <-. pose proof (ll_log_extra _ _ _ _ _ Lk L2) as Lk1.
  clear - R5 G2 Lk1. destruct R5. constructor; auto. intros q Kq. unfold logger_of at 1. cbn [sm upd_sm set_logs s_logs]. rewrite dget_dset.
  destruct (Nat.eqb_spec p q) as [<-|]; [exists l1, k; auto|]. exact (rp_logs0 q Kq).
Qed.

Lemma player_rep K C ob t s r p s1 : rep K C ob s r -> (need_commands s = true -> ob = t) -> active s p -> (need_commands s = false -> C p) -> update_player t s p = Ok s1 -> planned K (ev s1) ->
  exists r1, update_player t r p = Ok r1 /\ rep K (fun q => C q \/ q = p) ob s1 r1.
Proof.
  intros R Hob Ap Hc H P. assert (Kp := rp_act _ _ _ _ _ R p Ap). unfold update_player in *. rewrite (rp_models _ _ _ _ _ R).
  destruct (dgetE (c_models (cx s)) p) as [m|] eqn:E1; [|discriminate].
  change (w_M V) with (w_M W). rewrite E1.
  destruct (with_logger s p _) as [s2|] eqn:E2; [|discriminate].
  destruct (wl _ _ _ _ _ _ _ (@log_state V t (get_state V m)) _ R Kp E2 (ll_log_state t _)) as (r2 & W2 & R2). rewrite W2.
  assert (N2 : need_commands s2 = need_commands s) by (apply with_logger_ok in E2 as (? & ? & _ & _ & ->); reflexivity).
  assert (Ap2 : active s2 p) by (apply with_logger_ev in E2 as [_ E2]; unfold active; rewrite E2; exact Ap).
  rewrite (rep_need _ _ _ _ _ R2), N2. rewrite N2 in H.
  assert (X : forall s3, (if need_commands s then ask s2 p t else Ok s2) = Ok s3 -> planned K (ev s3) ->
    exists r3, (if need_commands s then ask r2 p t else Ok r2) = Ok r3 /\ rep K (fun q => C q \/ q = p) ob s3 r3).
  { intros s3 H3 P3. destruct (need_commands s) eqn:Nd.
    - rewrite (Hob eq_refl) in *. exact (ask_rep _ _ _ _ _ _ _ R2 Ap2 H3 P3).
    - injection H3 as <-. exists r2. split; [reflexivity|]. apply (rep_mono _ _ _ _ _ _ R2). intros q [Hq| ->]; auto. }
  destruct (if need_commands s then ask s2 p t else Ok s2) as [s3|] eqn:E3; [|discriminate].
  destruct (dgetE (s_cmds (sm s3)) p) as [u|] eqn:E4; [|discriminate].
  destruct (dgetE (c_models (cx s3)) p) as [m2|] eqn:E5; [|discriminate].
  destruct (model_step W m2 u (dt (param s3))) as [m'|] eqn:E6; [|discriminate]. injection H as <-.
  destruct (X s3 eq_refl) as (r3 & X1 & R3). { eapply planned_incl; [|exact P]. cbn. intros e He. right. exact He. }
  rewrite X1. unfold agetE in *. rewrite (rp_cmds _ _ _ _ _ R3 p (or_intror eq_refl)), (rp_models _ _ _ _ _ R3).
  change (w_U V) with (w_U W) in *. change (w_M V) with (w_M W) in *.
  destruct (dget (s_cmds (sm s3)) p) as [u'|]; [|discriminate]. injection E4 as ->.
  destruct (dget (c_models (cx s3)) p) as [m2'|]; [|discriminate]. injection E5 as ->.
  unfold param. rewrite (rp_param _ _ _ _ _ R3). change (model_step V) with (model_step W). unfold param in E6. rewrite E6.
  eexists. split; [reflexivity|]. clear - R3. destruct R3. constructor; auto.
Qed.

Lemma player_incl t s p s1 : update_player t s p = Ok s1 -> incl (ev s) (ev s1) /\ frame s s1.
Proof.
  intro H. split; [|apply update_player_ok in H as (F & _); exact F]. unfold update_player in H.
  destruct (dgetE (c_models (cx s)) p) as [m|] eqn:E1; [|discriminate].
  destruct (with_logger s p _) as [s2|] eqn:E2; [|discriminate]. apply with_logger_ev in E2 as [E2 _].
  destruct (if need_commands s2 then ask s2 p t else Ok s2) as [s3|] eqn:E3; [|discriminate].
  destruct (dgetE (s_cmds (sm s3)) p) as [u|] eqn:E4; [|discriminate].
  destruct (dgetE (c_models (cx s3)) p) as [m2|] eqn:E5; [|discriminate].
  destruct (model_step W m2 u (dt (param s3))) as [m'|] eqn:E6; [|discriminate]. injection H as <-.
  rewrite <- E2. intros e He. right. destruct (need_commands s2).
  - apply ask_ok in E3 as (? & ? & ? & ? & ? & ? & ? & ? & ? & _ & _ & _ & _ & _ & _ & _ & _ & _ & _ & _ & Ev & _). rewrite Ev. right. exact He.
  - injection E3 as <-. exact He.
Qed.
Lemma players_incl t l : forall s s1, rfold (update_player t) s l = Ok s1 -> incl (ev s) (ev s1) /\ frame s s1.
Proof.
  induction l as [|p l IH]; cbn [rfold]; intros s s1 H; [injection H as <-; split; [apply incl_refl|apply frame_refl]|].
  destruct (update_player t s p) as [s2|] eqn:E; [|discriminate]. apply player_incl in E as [E F]. apply IH in H as [H G].
  split; [eapply incl_tran; eassumption|eapply frame_trans; eassumption].
Qed.

Lemma players_rep K ob t l : forall C s r s1, rep K C ob s r -> (need_commands s = true -> ob = t) -> (forall p, In p l -> active s p) -> (need_commands s = false -> forall p, In p l -> C p) ->
  rfold (update_player t) s l = Ok s1 -> planned K (ev s1) ->
  exists r1, rfold (update_player t) r l = Ok r1 /\ rep K (fun q => C q \/ In q l) ob s1 r1.
Proof.
  induction l as [|p l IH]; cbn [rfold]; intros C s r s1 R Ho Ha Hc H P.
  - injection H as <-. exists r. split; [reflexivity|]. apply (rep_mono _ _ _ _ _ _ R). intros q [Hq|[]]. exact Hq.
  - destruct (update_player t s p) as [s2|] eqn:E; [|discriminate]. destruct (players_incl _ _ _ _ H) as [I _].
    destruct (player_rep _ _ _ _ _ _ _ _ R Ho (Ha p (or_introl eq_refl)) (fun N => Hc N p (or_introl eq_refl)) E (planned_incl _ _ _ I P)) as (r2 & E2 & R2).
    rewrite E2. destruct (player_incl _ _ _ _ E) as [_ F].
    destruct (IH _ _ _ s1 R2) as (r1 & E1 & R1); [rewrite (need_frame _ _ F); exact Ho| | |exact H|exact P|].
    + intros q Hq. unfold active. rewrite (f_players _ _ F). apply Ha. right. exact Hq.
    + rewrite (need_frame _ _ F). intros N q Hq. left. apply Hc; [exact N|right; exact Hq].
    + exists r1. split; [exact E1|]. apply (rep_mono _ _ _ _ _ _ R1). intros q [Hq|[->|Hq]]; auto.
Qed.

(** ** post_update *)
Definition ok_sim K C ob (x : result (st W)) (y : result (st V)) : Prop :=
  forall s, x = Ok s -> exists r, y = Ok r /\ rep K C ob s r.

Lemma remove1_rep K C ob s r pm : rep K C ob s r -> ok_sim K C ob (remove_finished1 s pm) (@remove_finished1 V r pm).
Proof.
  destruct pm as [p g]. intros R s1 H. unfold remove_finished1 in *.
  assert (M : dmem (c_players (cx r)) p = dmem (c_players (cx s)) p).
  { destruct (dmem (c_players (cx s)) p) eqn:E; [apply dmem_spec in E; apply dmem_spec|apply dmem_false in E; apply dmem_false]; rewrite (rp_keys _ _ _ _ _ R); exact E. }
  rewrite M. destruct (dmem (c_players (cx s)) p) eqn:Ea; [|injection H as <-; eauto]. apply dmem_spec in Ea.
  unfold agetE in *. rewrite (rp_models _ _ _ _ _ R). change (w_M V) with (w_M W). destruct (dget (c_models (cx s)) p) as [md|]; [|discriminate]. cbv zeta in *.
  unfold time in *. rewrite (rp_time _ _ _ _ _ R). change (goal_done V) with (goal_done W). change (get_state V) with (get_state W).
  destruct (goal_done W g (get_state W md) (c_time (cx s))) as [[]|]; [|injection H as <-; eauto|discriminate].
  destruct (with_logger s p _) as [s2|] eqn:E2; [|discriminate]. injection H as <-.
  destruct (wl _ _ _ _ _ _ _ (@log_state V (c_time (cx s)) (get_state W md)) _ R (rp_act _ _ _ _ _ R p Ea) E2 (ll_log_state _ _)) as (r2 & W2 & R2). rewrite W2.
  eexists. split; [reflexivity|]. destruct R2. constructor; auto.
  - cbn [cx set_players c_players]. clear - rp_keys0. revert rp_keys0. generalize (c_players (cx s2)). generalize (c_players (cx r2)).
    induction l as [|[k v] l IH]; intros [|[k' v'] l']; cbn; intro E; try discriminate; [reflexivity|]. injection E as -> E.
    unfold adel; fold (adel (V:=w_A V) Nat.eqb); fold (adel (V:=w_A W) Nat.eqb). destruct (Nat.eqb k' p); [exact E|]. unfold akeys. cbn [map fst]. f_equal. apply IH. exact E.
  - cbn [cx set_players c_players]. apply NoDup_ddel. exact rp_nd0.
  - cbn [cx set_players c_players]. intros q a Hq. apply rp_plan0. destruct (Nat.eq_dec p q) as [<-|Nq]; [rewrite dget_ddel_same in Hq by exact rp_nd0; discriminate|]. rewrite dget_ddel_other in Hq by exact Nq. exact Hq.
  - unfold active. cbn [cx set_players c_players]. intros q Hq. apply rp_act0. eapply In_keys_ddel_sub. exact Hq.
Qed.

Lemma fold_rep {B} K C ob (f : st W -> B -> result (st W)) (g : st V -> B -> result (st V)) l :
  (forall x s r, rep K C ob s r -> ok_sim K C ob (f s x) (g r x)) -> forall s r, rep K C ob s r -> ok_sim K C ob (rfold f s l) (rfold g r l).
Proof.
  intro H. induction l as [|x l IH]; cbn [rfold]; intros s r R s1 E; [injection E as <-; eauto|].
  destruct (f s x) as [s2|] eqn:E2; [|discriminate]. destruct (H x s r R s2 E2) as (r2 & -> & R2). exact (IH _ _ R2 _ E).
Qed.

Lemma env1_rep K C ob p s r x : rep K C ob s r -> ok_sim K C ob (check_env1 p s x) (@check_env1 V p r x).
Proof.
  intros R s1 H. unfold check_env1, time, agetE in *. rewrite (rp_models _ _ _ _ _ R), (rp_scen _ _ _ _ _ R), (rp_time _ _ _ _ _ R).
  change (w_M V) with (w_M W). change (obstacles V) with (obstacles W). change (w_O V) with (w_O W). change (resolve_env V) with (resolve_env W).
  destruct (dget (c_models (cx s)) p) as [m|]; [|discriminate]. destruct (item (obstacles W (g_scen (c_cfg (cx s)))) x) as [o|]; [|discriminate].
  destruct (resolve_env W p o (c_time (cx s)) m) as [m' out]. cbv zeta in *. change (is_dyn V) with (is_dyn W).
  destruct R. destruct out as [[z|]|e].
  - destruct (is_dyn W m'); injection H as <-; (eexists; split; [reflexivity|]); constructor; cbn [cx set_reports set_models upd_cx c_reports c_first c_time c_models]; auto; rewrite ?rp_models0, ?rp_reports0, ?rp_first0; reflexivity.
  - injection H as <-. eexists; split; [reflexivity|]. constructor; cbn; auto; rewrite ?rp_models0, ?rp_reports0, ?rp_first0; reflexivity.
  - destruct e; try discriminate. destruct (is_dyn W m'); injection H as <-; (eexists; split; [reflexivity|]); constructor; cbn [cx set_reports set_models upd_cx c_reports c_first c_time c_models]; auto; rewrite ?rp_models0, ?rp_reports0, ?rp_first0; reflexivity.
Qed.
Lemma pair_rep K C ob s r x : rep K C ob s r -> ok_sim K C ob (check_pair s x) (@check_pair V r x).
Proof.
  destruct x as [p q]. intros R s1 H. unfold check_pair, time, agetE in *. rewrite (rp_models _ _ _ _ _ R), (rp_scen _ _ _ _ _ R), (rp_time _ _ _ _ _ R).
  change (w_M V) with (w_M W). change (intersects V) with (intersects W). change (footprint V) with (footprint W). change (resolve V) with (resolve W).
  destruct (dget (c_models (cx s)) p) as [a|]; [|discriminate]. destruct (dget (c_models (cx s)) q) as [b|]; [|discriminate].
  destruct (intersects W (footprint W a) (footprint W b)); [|injection H as <-; eauto].
  destruct (resolve W (g_scen (c_cfg (cx s))) p q (c_time (cx s)) a b) as [[a' b'] out]. cbv zeta in *.
  destruct R. destruct out as [[z|]|e].
  - injection H as <-; (eexists; split; [reflexivity|]); constructor; cbn [cx set_reports set_models upd_cx c_reports c_first c_time c_models]; auto; rewrite ?rp_models0, ?rp_reports0, ?rp_first0; reflexivity.
  - injection H as <-. eexists; split; [reflexivity|]. constructor; cbn; auto; rewrite ?rp_models0, ?rp_reports0, ?rp_first0; reflexivity.
  - destruct e; try discriminate. injection H as <-; (eexists; split; [reflexivity|]); constructor; cbn [cx set_reports set_models upd_cx c_reports c_first c_time c_models]; auto; rewrite ?rp_models0, ?rp_reports0, ?rp_first0; reflexivity.
Qed.

Lemma rep_termination K C ob s r : rep K C ob s r -> @termination V (cx r) = termination (cx s).
Proof.
  intros []. unfold termination. rewrite rp_param0, rp_time0, rp_first0, rp_miss0.
  assert (E : match c_players (cx r) with [] => true | _ => false end = match c_players (cx s) with [] => true | _ => false end).
  { clear - rp_keys0. unfold akeys in rp_keys0. destruct (c_players (cx r)), (c_players (cx s)); try reflexivity; discriminate. }
  rewrite E. change (w_G V) with (w_G W).
  assert (M : forall p, dmem (c_players (cx r)) p = dmem (c_players (cx s)) p).
  { intro p. destruct (dmem (c_players (cx s)) p) eqn:G; [apply dmem_spec in G; apply dmem_spec|apply dmem_false in G; apply dmem_false]; rewrite rp_keys0; exact G. }
  assert (Fb : forall l, forallb (fun pn => negb (dmem (c_players (cx r)) pn)) l = forallb (fun pn => negb (dmem (c_players (cx s)) pn)) l).
  { induction l as [|x l IH]; cbn [forallb]; [reflexivity|]. rewrite (M x). f_equal. exact IH. }
  destruct (g_missions (c_cfg (cx s))) as [|z zs]; [reflexivity|]. pose proof (Fb (akeys (z :: zs))) as Fz. cbv zeta. destruct (negb _); [exact Fz|reflexivity].
Qed.

Ltac inv_match H :=
  match type of H with
  | context [match ?x with _ => _ end] => destruct x eqn:?; try discriminate H
  end.
Lemma fold_incl {B} (f : st W -> B -> result (st W)) l : (forall x s s1, f s x = Ok s1 -> incl (ev s) (ev s1)) -> forall s s1, rfold f s l = Ok s1 -> incl (ev s) (ev s1).
Proof.
  intro H. induction l as [|x l IH]; cbn [rfold]; intros s s1 E; [injection E as <-; apply incl_refl|].
  destruct (f s x) as [s2|] eqn:E2; [|discriminate]. eapply incl_tran; [apply (H x _ _ E2)|apply IH; exact E].
Qed.
Lemma remove_incl pm s s1 : remove_finished1 s pm = Ok s1 -> incl (ev s) (ev s1).
Proof.
  destruct pm as [p g]. unfold remove_finished1. intro H. repeat (inv_match H; try (injection H as <-; try apply incl_refl)).
  match goal with E : with_logger _ _ _ = Ok _ |- _ => apply with_logger_ev in E as [E _]; cbn; rewrite E end. apply incl_tl, incl_refl.
Qed.
Lemma env1_incl p x s s1 : check_env1 p s x = Ok s1 -> incl (ev s) (ev s1).
Proof. unfold check_env1. intro H. repeat (inv_match H); injection H as <-; cbn; apply incl_tl, incl_refl. Qed.
Lemma pair_incl x s s1 : check_pair s x = Ok s1 -> incl (ev s) (ev s1).
Proof. destruct x as [p q]. unfold check_pair. intro H. repeat (inv_match H); injection H as <-; cbn; first [apply incl_refl|apply incl_tl, incl_refl]. Qed.
Lemma post_incl s s1 : post_update s = Ok s1 -> incl (ev s) (ev s1).
Proof.
  unfold post_update. cbv zeta. intro H. destruct (remove_finished _) as [s2|] eqn:E2; [|discriminate].
  assert (I2 : incl (ev s) (ev s2)) by (apply (fold_incl _ _ remove_incl) in E2; exact E2).
  destruct (c_term (cx (maybe_terminate s2))); [injection H as <-; exact I2|].
  destruct (check_env (maybe_terminate s2)) as [s4|] eqn:E4; [|discriminate].
  eapply incl_tran; [exact I2|]. eapply incl_tran; [|apply (fold_incl _ _ pair_incl) in H; exact H].
  unfold check_env in E4. apply fold_incl in E4; [exact E4|]. clear. intros p s s1 H. unfold check_env_player in H. inv_match H. apply (fold_incl _ _ (env1_incl p)) in H. exact H.
Qed.

Lemma step_incl s s1 : step s = Ok s1 -> incl (ev s) (ev s1).
Proof.
  unfold step. intro H. destruct (pre_update s) as [s2|] eqn:E2; [|discriminate]. destruct (update s2) as [s3|] eqn:E3; [|discriminate].
  assert (X : ev s2 = ev s). { unfold pre_update in E2. destruct (need_commands s); [|injection E2 as <-; reflexivity]. destruct (rmapM _ _); [|discriminate]. injection E2 as <-. reflexivity. }
  rewrite <- X. eapply incl_tran; [|apply post_incl; exact H]. unfold update in E3. cbv zeta in E3. destruct (rfold _ _ _) as [s4|] eqn:E4; [|discriminate].
  apply players_incl in E4 as [E4 _]. destruct (need_commands s4); injection E3 as <-; exact E4.
Qed.
Lemma env_player_rep K C ob : forall p s r, rep K C ob s r -> ok_sim K C ob (check_env_player s p) (@check_env_player V r p).
Proof.
  intros p s r R s1 H. unfold check_env_player, agetE in *. rewrite (rp_models _ _ _ _ _ R), (rp_scen _ _ _ _ _ R). change (w_M V) with (w_M W). change (footprint V) with (footprint W). change (env_query V) with (env_query W).
  destruct (dget (c_models (cx s)) p) as [m|]; [|discriminate]. exact (fold_rep K C ob (check_env1 p) (@check_env1 V p) _ (fun x s r => env1_rep K C ob p s r x) _ _ R _ H).
Qed.
Lemma post_rep K C ob s r : rep K C ob s r -> ok_sim K C ob (post_update s) (@post_update V r).
Proof.
  intros R s1 H. unfold post_update in *. cbv zeta in *.
  set (s2 := upd_cx s (set_time (cx s) (time s + dt (param s)))) in *. set (r2 := upd_cx r (set_time (cx r) (time r + dt (param r)))).
  assert (R2 : rep K C ob s2 r2).
  { destruct R. constructor; auto. cbn [r2 s2 cx upd_cx set_time c_time]. unfold time, param. rewrite rp_time0, rp_param0. reflexivity. }
  destruct (remove_finished s2) as [s3|] eqn:E3; [|discriminate]. unfold remove_finished in *.
  destruct (fold_rep K C ob remove_finished1 (@remove_finished1 V) (g_missions (c_cfg (cx s2))) (fun x s r => remove1_rep K C ob s r x) _ _ R2 _ E3) as (r3 & W3 & R3).
  rewrite (rp_miss _ _ _ _ _ R2). change (w_G V) with (w_G W). rewrite W3.
  assert (R4 : rep K C ob (maybe_terminate s3) (maybe_terminate r3)).
  { pose proof (rep_termination _ _ _ _ _ R3) as T. destruct R3. constructor; auto. }
  rewrite (rp_term _ _ _ _ _ R4). destruct (c_term (cx (maybe_terminate s3))); [injection H as <-; eauto|].
  destruct (check_env (maybe_terminate s3)) as [s5|] eqn:E5; [|discriminate]. unfold check_env in *.
  destruct (fold_rep K C ob check_env_player (@check_env_player V) (akeys (c_players (cx (maybe_terminate s3)))) (fun x s r => env_player_rep K C ob x s r) _ _ R4 _ E5) as (r5 & W5 & R5).
  rewrite (rp_keys _ _ _ _ _ R4), W5. unfold check_players in *. rewrite (rp_keys _ _ _ _ _ R5).
  exact (fold_rep K C ob check_pair (@check_pair V) _ (fun x s r => pair_rep K C ob s r x) _ _ R5 _ H).
Qed.

Lemma step_rep K C ob s r s1 : rep K C ob s r -> NoDup (akeys (c_players (cx s))) -> (need_commands s = false -> forall p, active s p -> C p) -> step s = Ok s1 -> planned K (ev s1) ->
  exists r1 ob1, step r = Ok r1 /\ rep K (fun q => C q \/ active s q) ob1 s1 r1.
Proof.
  intros R N Hc H P. unfold step in *. destruct (pre_update s) as [s2|] eqn:E2; [|discriminate].
  destruct (update s2) as [s3|] eqn:E3; [|discriminate].
  assert (P3 : planned K (ev s3)) by (eapply planned_incl; [apply post_incl; exact H|exact P]).
  assert (X : exists r2, pre_update r = Ok r2 /\ exists ob2, rep K C ob2 s2 r2 /\ (need_commands s = true -> ob2 = time s2)).
  { unfold pre_update in *. rewrite (rep_need _ _ _ _ _ R). destruct (need_commands s) eqn:Nd.
    - rewrite (rp_models _ _ _ _ _ R), (rp_keys _ _ _ _ _ R). change (@observe V) with (@observe W).
      change (w_X V) with (w_X W). change (w_F V) with (w_F W).
      destruct (rmapM (observe (c_models (cx s))) (akeys (c_players (cx s)))) as [obs|]; [|discriminate]. injection E2 as <-. eexists. split; [reflexivity|]. exists (time s). split; [|reflexivity].
      destruct R. constructor; auto.
    - injection E2 as <-. eexists. split; [reflexivity|]. exists ob. split; [exact R|discriminate]. }
  destruct X as (r2 & W2 & ob2 & R2 & O2). rewrite W2.
  apply pre_update_ok in E2 as (Q1 & _ & Q3 & _).
  assert (A2 : forall p, active s2 p <-> active s p) by (intro p; unfold active; rewrite Q1; tauto).
  assert (Nd2 : need_commands s2 = need_commands s) by (unfold need_commands, time, param; rewrite Q3, Q1; reflexivity).
  unfold update in E3. cbv zeta in E3. destruct (rfold (update_player (time s2)) s2 (akeys (c_players (cx s2)))) as [s2'|] eqn:E4; [|discriminate].
  assert (P4 : planned K (ev s2')) by (destruct (need_commands s2'); injection E3 as <-; exact P3).
  assert (U : exists r3 ob3, update r2 = Ok r3 /\ rep K (fun q => C q \/ active s q) ob3 s3 r3).
  { unfold update. cbv zeta. unfold time at 1. rewrite (rp_time _ _ _ _ _ R2), (rp_keys _ _ _ _ _ R2). fold (time s2).
    assert (Y : exists r2' ob3, rfold (@update_player V (time s2)) r2 (akeys (c_players (cx s2))) = Ok r2' /\ rep K (fun q => C q \/ In q (akeys (c_players (cx s2)))) ob3 s2' r2').
    { destruct (players_rep K ob2 (time s2) (akeys (c_players (cx s2))) C s2 r2 s2' R2) as (r1 & Y1 & Y2); [rewrite Nd2; exact O2|auto| |exact E4|exact P4|].
      - rewrite Nd2. intros Nd p Hp. apply Hc; [exact Nd|apply A2; exact Hp].
      - exists r1, ob2. auto. }
    destruct Y as (r2' & ob3 & Y1 & Y2). rewrite Y1, (rep_need _ _ _ _ _ Y2).
    exists (if need_commands s2' then upd_sm r2' (set_last (sm r2') (Some (time s2))) else r2'), ob3.
    split; [destruct (need_commands s2'); unfold time; rewrite ?(rp_time _ _ _ _ _ R2); reflexivity|].
    assert (Y3 := rep_mono _ _ (fun q => C q \/ active s q) _ _ _ Y2 (fun q Hq => match Hq with or_introl a => or_introl a | or_intror b => or_intror (proj2 (A2 q) b) end)).
    destruct (need_commands s2'); injection E3 as <-; [|exact Y3]. destruct Y3. constructor; auto. }
  destruct U as (r3 & ob3 & U1 & U2). rewrite U1. destruct (post_rep _ _ _ _ _ U2 _ H) as (r4 & W4 & R4). exists r4, ob3. auto.
Qed.

(** ** The whole run *)
Lemma loop_rep c s0 K : started c s0 -> 0 < dt (g_param (c_cfg c)) -> forall fuel k s r ob s1, after s0 k s ->
  rep K (fun p => active s p /\ s_last (sm s) <> None) ob s r -> loop fuel s = Some (Ok s1) -> planned K (ev s1) ->
  exists r1 ob1, loop fuel r = Some (Ok r1) /\ rep K (fun _ => False) ob1 s1 r1.
Proof.
  intros Sd D. induction fuel as [|f IH]; intros k s r ob s1 A R H P; cbn [loop] in *; rewrite (rp_term _ _ _ _ _ R); destruct (c_term (cx s)) eqn:Et; try discriminate.
  - injection H as <-. exists r, ob. split; [reflexivity|]. apply (rep_mono _ _ _ _ _ _ R). tauto.
  - injection H as <-. exists r, ob. split; [reflexivity|]. apply (rep_mono _ _ _ _ _ _ R). tauto.
  - destruct (step s) as [s2|] eqn:E; [|discriminate]. pose proof (after_step _ _ _ _ _ Sd D A E) as Sr.
    assert (A2 : after s0 (S k) s2) by (econstructor; eassumption).
    assert (P2 : planned K (ev s2)).
    { eapply planned_incl; [|exact P]. clear - H. revert s2 H. induction f as [|f IH]; intros s2 H; cbn [loop] in H; destruct (c_term (cx s2)); try discriminate; try (injection H as <-; apply incl_refl).
      destruct (step s2) as [s3|] eqn:E; [|discriminate]. eapply incl_tran; [|apply IH; exact H]. apply step_incl. exact E. }
    destruct (step_rep _ _ _ _ _ s2 R (i_nd _ (fa_inv _ _ _ _ (started_facts _ _ _ _ Sd D A)))) as (r2 & ob2 & E2 & R2); [|exact E|exact P2|].
    + intros Nd p Hp. split; [exact Hp|]. intro X. unfold need_commands in Nd. rewrite X in Nd. discriminate.
    + rewrite E2. apply (IH (S k) s2 r2 ob2 s1 A2); [|exact H|exact P]. apply (rep_mono _ _ _ _ _ _ R2). intros p [Hp _]. right. eapply srel_active; eassumption.
Qed.

Lemma init_rep l : forall r, (forall p, In p l -> In p (akeys (c_players (cx r))) /\ In p (akeys (c_models (cx r)))) ->
  (forall p a, dget (c_players (cx r)) p = Some a -> a = plan p) ->
  exists r0, rfold (@init_player V) r l = Ok r0 /\ (forall p a, dget (c_players (cx r0)) p = Some a -> a = plan p).
Proof.
  induction l as [|p l IH]; cbn [rfold]; intros r H P; [eauto|]. destruct (H p (or_introl eq_refl)) as [H1 H2].
  unfold init_player at 1. unfold agetE. destruct (In_keys_dget _ _ H1) as [a Ea]. destruct (In_keys_dget _ _ H2) as [m Em]. rewrite Ea, Em.
  change (agent_init V a p (g_seed (c_cfg (cx r))) (g_scen (c_cfg (cx r))) (dget (g_missions (c_cfg (cx r))) p) m) with (@Ok (seq (w_U W)) a).
  apply IH.
  - intros q Hq. cbn [cx set_players c_players c_models]. destruct (H q (or_intror Hq)) as [G1 G2]. split; [apply In_keys_dset; auto|exact G2].
  - intros q b. cbn [cx set_players c_players]. rewrite dget_dset. destruct (Nat.eqb_spec p q) as [<-|]; [|apply P]. intros [= <-]. apply P. exact Ea.
Qed.
End Rep.

Lemma keys_map {A} (g : player -> A) ks : akeys (map (fun p => (p, g p)) ks) = ks.
Proof. unfold akeys. rewrite map_map. cbn. apply map_id. Qed.
Lemma dget_map {A} (g : player -> A) ks p a : dget (map (fun p => (p, g p)) ks) p = Some a -> a = g p.
Proof. induction ks as [|k ks IH]; [discriminate|]. cbn [map]. rewrite dget_cons. destruct (Nat.eqb_spec k p) as [->|]; [congruence|exact IH]. Qed.

Definition plan_of {W : world} (log : list (player * plog W)) (p : player) : seq (w_U W) := match dget log p with Some l => pl_commands l | None => mkSeq [] [] true end.

Lemma valid_replay {W : world} cpu (c : ctx W) log seed : valid_ctx c -> valid_ctx (replay_context W cpu c log seed).
Proof.
  intros V. destruct (valid_ctx_keys _ V) as [K1 K2]. destruct V as (_ & N1 & N2 & N3). unfold valid_ctx, replay_context. cbn [c_models c_players c_cfg g_missions].
  rewrite (keys_map (fun p => match dget log p with Some l => pl_commands l | None => mkSeq [] [] true end)). split; [|auto].
  unfold ctx_post_init. cbn [c_models c_players c_cfg g_missions].
  replace (same_keys _ _) with true; [|symmetry; apply same_keys_spec; rewrite (keys_map (fun p => match dget log p with Some l => pl_commands l | None => mkSeq [] [] true end)); exact K1]. cbn [negb].
  replace (forallb _ _) with true; [reflexivity|]. symmetry. apply forallb_forall. intros p Hp. apply dmem_spec, K2, Hp.
Qed.

Lemma replay_ok {W : world} cpu (c : ctx W) m (m' : simulator (replay_world W cpu)) seed fuel sf : valid_ctx c -> unused m -> unused m' -> 0 < dt (g_param (c_cfg c)) ->
  run fuel m c = Some (Ok sf) ->
  exists sr, run fuel m' (replay_context W cpu c (c_log (cx sf)) seed) = Some (Ok sr) /\ same_happened sf sr.
Proof.
  intros V U U' D H. unfold run in H. destruct (init_run c m) as [s0|] eqn:E0; [|discriminate].
  assert (Sd : started c s0) by (split; [exact V|eauto]).
  destruct (loop fuel s0) as [[s|]|] eqn:El; [|discriminate|discriminate].
  destruct (loop_after s0 fuel 0 s0 s (after_0 s0) El) as (k & A & Tm). pose proof (started_facts _ _ _ _ Sd D A) as F.
  assert (N : NoDup (akeys (c_models (cx s)))) by (rewrite (fa_models _ _ _ _ F); apply V).
  destruct (write_logs_ok s (fa_inv _ _ _ _ F) N) as (sf' & Wf & Wev & Wsm & (lg & Wcx) & Wl). rewrite Wf in H. injection H as ->.
  set (log := c_log (cx sf)) in *. set (rc := replay_context W cpu c log seed). pose proof (valid_replay cpu c log seed V) as Vr. fold rc in Vr.
  assert (Dr : 0 < dt (g_param (c_cfg rc))) by exact D.
  destruct (valid_ctx_keys _ V) as [K1 K2].
  assert (Kr : akeys (c_players rc) = akeys (c_players c)) by apply keys_map.
  (* the plans give the commands that were asked for *)
  assert (P : planned (plan_of log) (fun p => In p (akeys (c_models c))) (ev s)).
  { intros p t full o u Kp He. destruct (Wl p) as (pl & G1 & _ & G2 & _ & _ & _ & G3 & _); [rewrite (fa_models _ _ _ _ F); exact Kp|].
    unfold plan_of. rewrite G1. apply (aop_ok _ _ _ G3).
    assert (Ha : In (t, full, o, u) (asks s p)). { unfold asks, asks_of. apply in_flat_map. exists (EAsk p t full o u). split; [apply -> in_rev; exact He|]. rewrite Nat.eqb_refl. left. reflexivity. }
    assert (Hc : In (t, u) (iter (pl_commands pl))).
    { rewrite G2, (ai_cmds _ _ _ _ (ainv_holds _ _ Sd D _ _ A) p Kp). apply in_map_iff. exists (t, full, o, u). auto. }
    apply In_nth_error in Hc as [i Hi]. unfold iter in Hi. destruct G3 as [G3 G4]. apply nth_error_combine in Hi as [Hi1 Hi2].
    exists i, t. split; [exact Hi1|]. split; [exact Hi2|]. split; [apply Qcle_refl|]. intros j tj Hj Le.
    destruct (Nat.le_gt_cases j i) as [X|X]; [exact X|]. exfalso. pose proof (Inc_nth _ G4 _ _ _ _ X Hi1 Hj) as Y. exact (Qcle_not_lt _ _ Le Y). }
  (* initialisation *)
  destruct (init_rep cpu (plan_of log) (akeys (c_players rc)) (mkSt rc m' [])) as (r0 & R0 & R1).
  { intros p Hp. split; [exact Hp|]. rewrite Kr in Hp. apply K1, Hp. }
  { intros p a Ha. exact (dget_map (plan_of log) _ p a Ha). }
  assert (Sr : started rc r0) by (split; [exact Vr|]; exists m'; auto).
  pose proof (init_run_ok rc m' r0 R0) as (Q1&Q2&Q3&Q4&Q5&Q6&Q7&Q8&Q9&Q10&Q11&Q12&Q13&Q14&Q15).
  pose proof (init_run_ok c m s0 E0) as (T1&T2&T3&T4&T5&T6&T7&T8&T9&T10&T11&T12&T13&T14&T15).
  assert (Rp : rep cpu (plan_of log) (fun p => In p (akeys (c_models c))) (fun p => active s0 p /\ s_last (sm s0) <> None) (o_time (s_obs (sm r0))) s0 r0).
  { constructor; rewrite ?Q1, ?Q2, ?Q3, ?Q6, ?Q7, ?Q8, ?Q9, ?Q11, ?T1, ?T2, ?T3, ?T6, ?T7, ?T8, ?T9, ?T11; try reflexivity.
    - exact Kr.
    - rewrite Kr. apply V.
    - exact R1.
    - rewrite U, U'. reflexivity.
    - rewrite U. intros p [_ X]. congruence.
    - intros p Kp. apply K1 in Kp. exists new_logger, new_logger. split; [apply T14, Kp|]. split; [apply Q14; rewrite Kr; exact Kp|]. constructor; reflexivity.
    - intros p Hp. unfold active in Hp. rewrite T3 in Hp. apply K1, Hp. }
  destruct (loop_rep cpu (plan_of log) c s0 _ Sd D fuel 0%nat s0 r0 _ s (after_0 s0) Rp El P) as (r & ob & Lr & Rr).
  destruct (loop_after r0 fuel 0 r0 r (after_0 r0) Lr) as (kr & Ar & _). pose proof (started_facts _ _ _ _ Sr Dr Ar) as Fr.
  assert (Nr : NoDup (akeys (c_models (cx r)))) by (rewrite (fa_models _ _ _ _ Fr); apply Vr).
  destruct (write_logs_ok r (fa_inv _ _ _ _ Fr) Nr) as (sr & Xf & Xev & Xsm & (lgr & Xcx) & Xl).
  exists sr. split. { unfold run, init_run. rewrite R0, Lr, Xf. reflexivity. }
  unfold same_happened, time. rewrite Wcx, Xcx. cbn [c_time c_models c_players c_reports c_first set_log].
  pose proof (rp_logs _ _ _ _ _ _ _ Rr) as RL. destruct Rr. repeat (split; [assumption|]).
  intros p Hp. destruct (Wl p Hp) as (l & G1 & G2 & G3 & _). destruct (Xl p) as (l' & Y1 & Y2 & Y3 & _); [rewrite rp_models0; exact Hp|].
  exists l, l'. split; [rewrite <- Wcx; exact G1|]. split; [rewrite <- Xcx; exact Y1|]. rewrite Y2, Y3, G2, G3.
  destruct (RL p) as (a & b & B1 & B2 & []); [rewrite <- (fa_models _ _ _ _ F); exact Hp|].
  unfold states_log, commands_log. rewrite B1, B2, ll_states0, ll_commands0. split; reflexivity.
Qed.
