(** Proofs about the time limits of a simulation. *)
From Coq Require Import QArith Qcanon ZArith List Bool Arith Lia.
From Verif Require Import Base Num SeqModel SeqProofs SimulatorModel SimulatorSpec DictLemmas SimulatorProofs SimulatorProofs2 SimulatorProofs3 SimulatorProofs4 SimulatorProofs5 SimulatorProofs6 SimulatorProofs7 SimulatorProofs8 ApartProofs LimitSpec.
Import ListNotations.
Open Scope Qc_scope.

Section Limit.
Context {W : world}.
Implicit Types (s z : st W) (p q : player).
Variables T A : Qc.

Definition lim s : st W := mkSt (with_limits T A (cx s)) (sm s) (ev s).
Definition rm (r : result (st W)) : result (st W) := match r with Ok s => Ok (lim s) | Err e => Err e end.

Lemma lim_need s : need_commands (lim s) = need_commands s. Proof. reflexivity. Qed.

Ltac go := repeat match goal with
  | |- context [match ?x with _ => _ end] => destruct x; cbn [rm]; try reflexivity
  end.

Lemma lim_fold {B} (f : st W -> B -> result (st W)) (l : list B) : (forall s x, f (lim s) x = rm (f s x)) -> forall s, rfold f (lim s) l = rm (rfold f s l).
Proof.
  intro H. induction l as [|x l IH]; intro s; cbn [rfold]; [reflexivity|]. rewrite H. destruct (f s x); cbn [rm]; [apply IH|reflexivity].
Qed.

Lemma lim_logger s p f : with_logger (lim s) p f = rm (with_logger s p f).
Proof. unfold with_logger. cbn [lim sm]. destruct (dgetE (s_logs (sm s)) p) as [l|]; [|reflexivity]. destruct (f l); reflexivity. Qed.

Lemma lim_ask s p t : ask (lim s) p t = rm (ask s p t).
Proof.
  unfold ask. change (get_sensor (cx (lim s)) p) with (get_sensor (cx s) p). cbn [lim cx sm c_cfg with_limits g_scen c_players c_sensors ev].
  destruct (get_sensor (cx s) p) as [f|]; [|reflexivity]. destruct (sense W f _ _ p) as [[f' o]|]; [|reflexivity].
  destruct (dgetE (c_players (cx s)) p) as [a|]; [|reflexivity]. destruct (agent_cmds W a o) as [[a' u]|]; [|reflexivity]. cbv zeta.
  match goal with |- match with_logger ?z1 _ _ with _ => _ end = rm (match with_logger ?s1 _ _ with _ => _ end) => change z1 with (lim s1); rewrite (lim_logger s1) end.
  destruct (with_logger _ p (log_command t u)) as [s2|]; [cbn [rm]|reflexivity]. rewrite lim_logger.
  destruct (with_logger s2 p _) as [s3|]; [cbn [rm]|reflexivity]. destruct (agent_extra W a') as [[a'' x]|]; [|reflexivity].
  destruct x as [v|]; [|reflexivity].
  match goal with |- with_logger ?z1 _ _ = rm (with_logger ?s1 _ _) => change z1 with (lim s1) end. apply lim_logger.
Qed.

Lemma lim_player t s p : update_player t (lim s) p = rm (update_player t s p).
Proof.
  unfold update_player. cbn [lim cx c_models with_limits]. destruct (dgetE (c_models (cx s)) p) as [m0|]; [|reflexivity].
  change (mkSt (with_limits T A (cx s)) (sm s) (ev s)) with (lim s). rewrite lim_logger. destruct (with_logger s p _) as [s1|]; [cbn [rm]|reflexivity]. rewrite lim_need.
  assert (Q : (if need_commands s1 then ask (lim s1) p t else Ok (lim s1)) = rm (if need_commands s1 then ask s1 p t else Ok s1)) by (destruct (need_commands s1); [apply lim_ask|reflexivity]).
  rewrite Q. destruct (if need_commands s1 then ask s1 p t else Ok s1) as [s2|]; [cbn [rm]|reflexivity]. cbn [lim sm cx c_models with_limits].
  destruct (dgetE (s_cmds (sm s2)) p); [|reflexivity]. destruct (dgetE (c_models (cx s2)) p); [|reflexivity].
  change (dt (param (mkSt (with_limits T A (cx s2)) (sm s2) (ev s2)))) with (dt (param s2)). destruct (model_step W _ _ _); reflexivity.
Qed.

Lemma lim_update s : update (lim s) = rm (update s).
Proof.
  unfold update. change (time (lim s)) with (time s). cbn [lim cx c_players with_limits]. change (mkSt (with_limits T A (cx s)) (sm s) (ev s)) with (lim s).
  rewrite (lim_fold _ _ (lim_player (time s))). destruct (rfold (update_player (time s)) s _) as [s1|]; [cbn [rm]|reflexivity]. rewrite lim_need. destruct (need_commands s1); reflexivity.
Qed.

Lemma lim_pre s : pre_update (lim s) = rm (pre_update s).
Proof.
  unfold pre_update. rewrite lim_need. destruct (need_commands s); [|reflexivity]. cbn [lim cx c_models c_players with_limits].
  destruct (rmapM _ _); reflexivity.
Qed.

Lemma lim_remove1 s pm : remove_finished1 (lim s) pm = rm (remove_finished1 s pm).
Proof.
  destruct pm as [p g]. unfold remove_finished1. change (time (lim s)) with (time s). cbn [lim cx c_models c_players with_limits].
  destruct (dmem (c_players (cx s)) p); [|reflexivity]. destruct (dgetE (c_models (cx s)) p) as [m|]; [|reflexivity]. cbv zeta.
  destruct (goal_done W g _ _) as [[|]|]; [|reflexivity|reflexivity].
  change (mkSt (with_limits T A (cx s)) (sm s) (ev s)) with (lim s). rewrite lim_logger. destruct (with_logger s p _); reflexivity.
Qed.
Lemma lim_remove s : remove_finished (lim s) = rm (remove_finished s).
Proof. unfold remove_finished. cbn [lim cx c_cfg with_limits g_missions]. apply (lim_fold remove_finished1). apply lim_remove1. Qed.

Lemma lim_env1 p s i : check_env1 p (lim s) i = rm (check_env1 p s i).
Proof.
  unfold check_env1. change (time (lim s)) with (time s). cbn [lim cx c_cfg c_models with_limits g_scen].
  destruct (dgetE (c_models (cx s)) p) as [m|]; [|reflexivity]. destruct (item _ i) as [ob|]; [|reflexivity].
  destruct (resolve_env W p ob (time s) m) as [m' out]. cbv zeta. destruct out as [[r|]|e]; [destruct (is_dyn W m'); reflexivity|reflexivity|].
  destruct e; try reflexivity. destruct (is_dyn W m'); reflexivity.
Qed.
Lemma lim_env s : check_env (lim s) = rm (check_env s).
Proof.
  unfold check_env. apply (lim_fold check_env_player). intros s1 p. unfold check_env_player. cbn [lim cx c_cfg c_models with_limits g_scen].
  destruct (dgetE (c_models (cx s1)) p) as [m|]; [|reflexivity]. apply (lim_fold (check_env1 p)). apply lim_env1.
Qed.
Lemma lim_pair s pq : check_pair (lim s) pq = rm (check_pair s pq).
Proof.
  destruct pq as [p q]. unfold check_pair. change (time (lim s)) with (time s). cbn [lim cx c_cfg c_models with_limits g_scen].
  destruct (dgetE (c_models (cx s)) p) as [a|]; [|reflexivity]. destruct (dgetE (c_models (cx s)) q) as [b|]; [|reflexivity].
  destruct (intersects W _ _); [|reflexivity]. destruct (resolve W _ p q (time s) a b) as [[a' b'] out]. cbv zeta. destruct out as [[r|]|e]; [reflexivity|reflexivity|].
  destruct e; reflexivity.
Qed.
Lemma lim_pairs s : check_players (lim s) = rm (check_players s).
Proof. unfold check_players. apply (lim_fold check_pair). apply lim_pair. Qed.

Definition looser s : Prop := max_sim_time (param s) <= T /\ after_collision (param s) <= A.

Lemma lim_term s : looser s -> termination (cx (lim s)) = true -> termination (cx s) = true.
Proof.
  intros [L1 L2] H. apply termination_iff in H. apply termination_iff. cbn [lim cx] in H. destruct H as [H|f H1 H2|H|H1 H2]; cbn in *.
  - apply stop_time. eapply Qcle_lt_trans; [exact L1|exact H].
  - eapply stop_collision; [exact H1|]. eapply Qcle_lt_trans; [|exact H2]. apply Qcplus_le_compat; [apply Qcle_refl|exact L2].
  - apply stop_empty. exact H.
  - apply stop_missions; assumption.
Qed.

(** Up to the check whether the simulation is over. *)
Definition front s : result (st W) :=
  match pre_update s with Err e => Err e | Ok s1 =>
  match update s1 with Err e => Err e | Ok s2 => remove_finished (upd_cx s2 (set_time (cx s2) (time s2 + dt (param s2)))) end end.
Definition back s : result (st W) :=
  let s3 := maybe_terminate s in
  if c_term (cx s3) then Ok s3 else match check_env s3 with Err e => Err e | Ok s4 => check_players s4 end.
Lemma step_split s : step s = match front s with Err e => Err e | Ok s1 => back s1 end.
Proof. unfold step, front. destruct (pre_update s) as [x|]; [|reflexivity]. destruct (update x); [|reflexivity]. unfold post_update, back. reflexivity. Qed.
Lemma lim_front s : front (lim s) = rm (front s).
Proof.
  unfold front. rewrite lim_pre. destruct (pre_update s) as [s1|]; [cbn [rm]|reflexivity]. rewrite lim_update. destruct (update s1) as [s2|]; [cbn [rm]|reflexivity].
  apply (lim_remove (upd_cx s2 (set_time (cx s2) (time s2 + dt (param s2))))).
Qed.
Lemma lim_maybe s : termination (cx (lim s)) = termination (cx s) -> maybe_terminate (lim s) = lim (maybe_terminate s).
Proof. intro H. unfold maybe_terminate. rewrite H. reflexivity. Qed.

(** The configuration is never touched. *)
Definition cfgd s s1 : Prop := c_cfg (cx s1) = c_cfg (cx s).
Lemma cfgd_fold {B} (f : st W -> B -> result (st W)) l : (forall x s s1, f s x = Ok s1 -> cfgd s s1) -> forall s s1, rfold f s l = Ok s1 -> cfgd s s1.
Proof.
  intro H. induction l as [|x l IH]; cbn [rfold]; intros s s1 E; [injection E as <-; reflexivity|].
  destruct (f s x) as [s2|] eqn:E2; [|discriminate]. apply H in E2. apply IH in E. unfold cfgd in *. congruence.
Qed.
Lemma cfgd_logger s p f s1 : with_logger s p f = Ok s1 -> cfgd s s1.
Proof. intro H. apply with_logger_ev in H as [_ H]. unfold cfgd. rewrite H. reflexivity. Qed.
Lemma cfgd_player t s p s1 : update_player t s p = Ok s1 -> cfgd s s1.
Proof. intro H. apply update_player_ok in H as (F & _). apply (f_cfg _ _ F). Qed.
Lemma cfgd_front s s1 : front s = Ok s1 -> cfgd s s1.
Proof.
  intro H. unfold front in H. destruct (pre_update s) as [sa|] eqn:E1; [|discriminate]. apply pre_update_ok in E1 as (E1 & _).
  destruct (update sa) as [sb|] eqn:E2; [|discriminate]. unfold update in E2. cbv zeta in E2. destruct (rfold _ sa _) as [sc|] eqn:E3; [|discriminate].
  apply cfgd_fold in E3; [|intros; eapply cfgd_player; eassumption].
  assert (E4 : cx sb = cx sc) by (destruct (need_commands sc); injection E2 as <-; reflexivity).
  unfold remove_finished in H. apply cfgd_fold in H.
  - unfold cfgd in *. rewrite H. cbn. rewrite E4, E3, E1. reflexivity.
  - clear. intros [p g] s s1 H. unfold remove_finished1 in H. repeat (inv_match H); try (injection H as <-; reflexivity).
    match goal with E : with_logger _ _ _ = Ok _ |- _ => apply cfgd_logger in E end. injection H as <-. cbn. assumption.
Qed.
Lemma cfgd_env s s1 : check_env s = Ok s1 -> cfgd s s1.
Proof.
  apply cfgd_fold. intros p s' s1' H. unfold check_env_player in H. inv_match H. revert H. apply cfgd_fold. clear. intros x s s1 H.
  unfold check_env1 in H. repeat (inv_match H); injection H as <-; reflexivity.
Qed.
Lemma cfgd_pairs s s1 : check_players s = Ok s1 -> cfgd s s1.
Proof. apply cfgd_fold. clear. intros [p q] s s1 H. unfold check_pair in H. repeat (inv_match H); injection H as <-; reflexivity. Qed.
Lemma cfgd_back s s1 : back s = Ok s1 -> cfgd s s1.
Proof.
  unfold back. cbv zeta. destruct (c_term (cx (maybe_terminate s))); [intro H; injection H as <-; reflexivity|].
  destruct (check_env (maybe_terminate s)) as [s2|] eqn:E; [|discriminate]. apply cfgd_env in E. intro H. apply cfgd_pairs in H. unfold cfgd in *. rewrite H, E. reflexivity.
Qed.
Lemma looser_same s s1 : cfgd s s1 -> looser s -> looser s1.
Proof. unfold looser, param, cfgd. intros -> H. exact H. Qed.
Lemma looser_step s s1 : step s = Ok s1 -> looser s -> looser s1.
Proof.
  rewrite step_split. destruct (front s) as [s2|] eqn:E; [|discriminate]. apply cfgd_front in E. intro H. apply cfgd_back in H. intro L. eapply looser_same; [exact H|]. eapply looser_same; eassumption.
Qed.

Lemma back_term s s1 : back s = Ok s1 -> c_term (cx s1) = termination (cx s) /\ (termination (cx s) = true -> s1 = maybe_terminate s).
Proof.
  unfold back. cbv zeta. change (c_term (cx (maybe_terminate s))) with (termination (cx s)). destruct (termination (cx s)) eqn:Et.
  - intro H. injection H as <-. split; [exact Et|reflexivity].
  - destruct (check_env (maybe_terminate s)) as [s2|] eqn:E; [|discriminate]. apply kept_env in E as (_ & _ & _ & E). intro H. apply kept_pairs in H as (_ & _ & _ & H).
    split; [rewrite H, E; exact Et|discriminate].
Qed.

Lemma lim_back_live s : looser s -> termination (cx s) = false -> back (lim s) = rm (back s).
Proof.
  intros L Et. assert (Ez : termination (cx (lim s)) = false) by (destruct (termination (cx (lim s))) eqn:E; [apply lim_term in E; [congruence|exact L]|reflexivity]).
  unfold back. cbv zeta. rewrite lim_maybe by congruence. change (c_term (cx (lim (maybe_terminate s)))) with (termination (cx s)).
  change (c_term (cx (maybe_terminate s))) with (termination (cx s)). rewrite Et, lim_env. destruct (check_env (maybe_terminate s)) as [s2|]; [cbn [rm]|reflexivity]. apply lim_pairs.
Qed.

(** Iterations that do not end the simulation are the same. *)
Lemma lim_step s s1 : looser s -> step s = Ok s1 -> c_term (cx s1) = false -> step (lim s) = Ok (lim s1).
Proof.
  intros L H Ht. rewrite step_split in *. rewrite lim_front. destruct (front s) as [s2|] eqn:E; [cbn [rm]|discriminate]. destruct (back_term _ _ H) as [B _].
  rewrite lim_back_live; [rewrite H; reflexivity|eapply looser_same; [apply cfgd_front; exact E|exact L]|congruence].
Qed.
Lemma lim_step_err s e : looser s -> step s = Err e -> step (lim s) = Err e.
Proof.
  intros L H. rewrite step_split in *. rewrite lim_front. destruct (front s) as [s2|] eqn:E; cbn [rm]; [|congruence].
  assert (Ht : termination (cx s2) = false).
  { unfold back in H. cbv zeta in H. change (c_term (cx (maybe_terminate s2))) with (termination (cx s2)) in H. destruct (termination (cx s2)); [discriminate|reflexivity]. }
  rewrite lim_back_live; [rewrite H; reflexivity|eapply looser_same; [apply cfgd_front; exact E|exact L]|exact Ht].
Qed.
(** The last iteration leaves the same loggers and time behind. *)
Lemma lim_step_last s s1 z1 : step s = Ok s1 -> c_term (cx s1) = true -> step (lim s) = Ok z1 -> sm z1 = sm s1 /\ time z1 = time s1.
Proof.
  intros H Ht. rewrite step_split in *. rewrite lim_front. destruct (front s) as [s2|] eqn:E; [cbn [rm]|discriminate]. destruct (back_term _ _ H) as [B B2].
  rewrite B2 by congruence. unfold back. cbv zeta. destruct (c_term (cx (maybe_terminate (lim s2)))); [intro Q; injection Q as <-; split; reflexivity|].
  destruct (check_env (maybe_terminate (lim s2))) as [s3|] eqn:E3; [|discriminate]. apply kept_env in E3 as (K1 & _ & K3 & _). intro Q. apply kept_pairs in Q as (Q1 & _ & Q3 & _).
  split; [rewrite Q1, K1; reflexivity|unfold time; rewrite Q3, K3; reflexivity].
Qed.
Lemma lim_step_within s s1 : looser s -> step s = Ok s1 -> c_term (cx s1) = true -> within_limits s1 -> step (lim s) = Ok (lim s1).
Proof.
  intros L H Ht Wl. rewrite step_split in *. rewrite lim_front. destruct (front s) as [s2|] eqn:E; [cbn [rm]|discriminate]. destruct (back_term _ _ H) as [B B2].
  assert (Et : termination (cx s2) = true) by congruence. rewrite (B2 Et) in *.
  assert (Ez : termination (cx (lim s2)) = true).
  { apply termination_iff in Et. apply termination_iff. destruct Wl as [W1 W2]. unfold time, param in W1, W2. cbn in W1, W2. destruct Et as [Q|f Q1 Q2|Q|Q1 Q2].
    - exfalso. exact (Qclt_not_le _ _ Q W1).
    - exfalso. exact (Qclt_not_le _ _ Q2 (W2 f Q1)).
    - apply stop_empty. exact Q.
    - apply stop_missions; assumption. }
  unfold back. cbv zeta. rewrite lim_maybe by congruence. change (c_term (cx (lim (maybe_terminate s2)))) with (termination (cx s2)). rewrite Et. reflexivity.
Qed.

Lemma loop_err : forall fuel s e, looser s -> loop fuel s = Some (Err e) -> loop fuel (lim s) = Some (Err e).
Proof.
  induction fuel as [|n IH]; intros s e L; cbn [loop]; change (c_term (cx (lim s))) with (c_term (cx s)); destruct (c_term (cx s)); try discriminate.
  destruct (step s) as [s1|e1] eqn:E.
  - intro H. destruct (c_term (cx s1)) eqn:Et.
    + destruct n; cbn [loop] in H; rewrite Et in H; discriminate.
    + rewrite (lim_step _ _ L E Et). apply IH; [eapply looser_step; eassumption|exact H].
  - intro H. rewrite (lim_step_err _ _ L E). exact H.
Qed.
Lemma loop_within : forall fuel s s1, looser s -> loop fuel s = Some (Ok s1) -> within_limits s1 -> loop fuel (lim s) = Some (Ok (lim s1)).
Proof.
  induction fuel as [|n IH]; intros s s1 L; cbn [loop]; change (c_term (cx (lim s))) with (c_term (cx s)); destruct (c_term (cx s)) eqn:E0; try discriminate;
    try (intros H _; injection H as <-; reflexivity).
  destruct (step s) as [s2|e1] eqn:E; [|discriminate]. intros H Wl. destruct (c_term (cx s2)) eqn:Et.
  - assert (s1 = s2) by (destruct n; cbn [loop] in H; rewrite Et in H; congruence). subst s2.
    rewrite (lim_step_within _ _ L E Et Wl). destruct n; cbn [loop]; change (c_term (cx (lim s1))) with (c_term (cx s1)); rewrite Et; reflexivity.
  - rewrite (lim_step _ _ L E Et). apply IH; [eapply looser_step; eassumption|exact H|exact Wl].
Qed.

Lemma lim_init (c : ctx W) m : init_run (with_limits T A c) m = rm (init_run c m).
Proof.
  unfold init_run. change (mkSt (with_limits T A c) m []) with (lim (mkSt c m [])). cbn [with_limits c_players]. apply (lim_fold init_player). clear. intros s p.
  unfold init_player. cbn [lim cx c_cfg c_models c_players with_limits g_seed g_scen g_missions sm ev].
  destruct (dgetE (c_players (cx s)) p); [|reflexivity]. destruct (dgetE (c_models (cx s)) p); [|reflexivity]. destruct (agent_init W _ _ _ _ _ _); reflexivity.
Qed.
Lemma lim_write s : write_logs (lim s) = rm (write_logs s).
Proof.
  unfold write_logs. cbn [lim cx c_models with_limits]. apply (lim_fold write_log). clear. intros s p. unfold write_log. cbn [lim sm].
  destruct (dgetE (s_logs (sm s)) p); [|reflexivity]. destruct (logger_as_sequence _); reflexivity.
Qed.
Lemma lim_valid (c : ctx W) : valid_ctx c -> valid_ctx (with_limits T A c).
Proof. intro H. exact H. Qed.

Lemma lim_after s0 : looser s0 -> forall k s, after s0 k s -> looser s /\ (c_term (cx s) = false -> after (lim s0) k (lim s)).
Proof.
  intros L k s H. induction H as [|k s s1 H [L1 IH] Ht Hs]; [split; [exact L|intros _; constructor]|]. split; [eapply looser_step; eassumption|].
  intro Ht1. econstructor; [exact (IH Ht)|exact Ht|]. apply lim_step; assumption.
Qed.
End Limit.

(** ** Logs only grow *)
Section Grow.
Context {W : world}.
Implicit Types (s z : st W) (p q : player).

Lemma continued_refl {X} t (a : list (Qc * X)) : continued t a a.
Proof. exists []. split; [symmetry; apply app_nil_r|intros x []]. Qed.
Lemma continued_trans {X} t t' (a b c : list (Qc * X)) : t <= t' -> continued t a b -> continued t' b c -> continued t a c.
Proof.
  intros L (m1 & -> & H1) (m2 & -> & H2). exists (m1 ++ m2). split; [symmetry; apply app_assoc|].
  intros x Hx. apply in_app_iff in Hx as [Hx|Hx]; [auto|]. eapply Qcle_trans; [exact L|auto].
Qed.
Lemma continued_snoc {X} t (b : builder X) t' v : bwf b -> t <= t' -> continued t (samples b) (samples (snoc b t' v)).
Proof. intros [B _] L. exists [(t', v)]. split; [apply samples_snoc; exact B|]. intros x [<-|[]]. exact L. Qed.
Lemma continued_opt {X} t (b : builder X) t' v : bwf b -> t <= t' -> continued t (samples b) (samples (opt_snoc b t' v)).
Proof. intros B L. destruct v; cbn; [apply continued_snoc; assumption|apply continued_refl]. Qed.

Definition grown t s z p : Prop := continued t (states_log s p) (states_log z p) /\ continued t (commands_log s p) (commands_log z p) /\
  continued t (extra_log s p) (extra_log z p) /\ continued t (info_log s p) (info_log z p).

Lemma grown_step s s1 p : 0 < dt (param s) -> Inv s -> srel s s1 -> grown (time s) s s1 p.
Proof.
  intros D I R. destruct (active_dec s p) as [Ha|Hn].
  - destruct (sr_act _ _ R p Ha) as [m m1 m2 u l l' fin A1 A2 A3 A4 A5 A6 A7 A8 A9 A10 A11 A12 A13 A14].
    assert (Wf : lg_wf l) by (destruct (i_lg _ I p (i_am _ I p Ha)) as (l0 & Q1 & Q2); congruence). destruct Wf as (W1 & W2 & W3 & W4).
    assert (Bl : lg_below l (time s)) by (eapply i_below; eassumption). destruct Bl as (B1 & _).
    assert (Lt : time s <= time s1) by (rewrite (sr_time _ _ R); rewrite <- (Qcplus_0_r (time s)) at 1; apply Qcplus_le_compat; [apply Qcle_refl|apply Qclt_le_weak; exact D]).
    unfold grown, states_log, commands_log, extra_log, info_log. rewrite A5, A6, A7. split.
    + cbv zeta. destruct fin; [|apply continued_snoc; [exact W1|apply Qcle_refl]].
      eapply continued_trans; [apply Qcle_refl|apply continued_snoc; [exact W1|apply Qcle_refl]|]. apply continued_snoc; [|exact Lt]. apply snoc_bwf; assumption.
    + destruct (need_commands s).
      * destruct A14 as (f & f' & o & a & a' & a'' & x & full & _ & _ & _ & _ & _ & _ & -> & -> & -> & _).
        split; [apply continued_snoc; [assumption|apply Qcle_refl]|]. split; [apply continued_opt; [assumption|apply Qcle_refl]|apply continued_snoc; [assumption|apply Qcle_refl]].
      * destruct A14 as (_ & -> & -> & -> & _). repeat split; apply continued_refl.
  - destruct (sr_inact _ _ R p Hn) as (_ & _ & Q & _). unfold grown, states_log, commands_log, extra_log, info_log. rewrite Q. repeat split; apply continued_refl.
Qed.

Lemma reports_step s s1 : srel s s1 -> exists more, c_reports (cx s1) = c_reports (cx s) ++ more /\ (reports_stamped W -> forall r, In r more -> r_time r = time s1).
Proof.
  intro R. pose proof (sr_coll _ _ R) as Q. destruct (c_term (cx s1)).
  - destruct Q as (Q & _). exists []. split; [rewrite Q; symmetry; apply app_nil_r|intros _ r []].
  - destruct Q as (np & ne & new & Q1 & _ & _ & _ & _ & _ & _ & Q). exists new. split; [exact Q1|]. intros St r Hr. destruct (Q St) as [F _]. rewrite Forall_forall in F. auto.
Qed.

Lemma grown_after (c : ctx W) s0 k s : started c s0 -> 0 < dt (g_param (c_cfg c)) -> after s0 k s -> forall n z, after s n z ->
  time s <= time z /\ (forall p, grown (time s) s z p) /\
  (exists more, c_reports (cx z) = c_reports (cx s) ++ more /\ (reports_stamped W -> forall r, In r more -> time s <= r_time r)).
Proof.
  intros S D H n z B. induction B as [|n z z1 B IH T Hs].
  - split; [apply Qcle_refl|]. split; [intro p; repeat split; apply continued_refl|]. exists []. split; [symmetry; apply app_nil_r|intros _ r []].
  - destruct IH as (I1 & I2 & more & I3 & I4). pose proof (after_trans _ _ _ H _ _ B) as Az. pose proof (started_facts _ _ _ _ S D Az) as F.
    pose proof (after_step _ _ _ _ _ S D Az Hs) as R. assert (Dz : 0 < dt (param z)) by (rewrite (fa_param _ _ _ _ F); exact D).
    assert (Lt : time z <= time z1) by (rewrite (sr_time _ _ R); rewrite <- (Qcplus_0_r (time z)) at 1; apply Qcplus_le_compat; [apply Qcle_refl|apply Qclt_le_weak; exact Dz]).
    split; [eapply Qcle_trans; eassumption|]. split.
    + intro p. destruct (I2 p) as (G1 & G2 & G3 & G4). destruct (grown_step z z1 p Dz (fa_inv _ _ _ _ F) R) as (K1 & K2 & K3 & K4).
      repeat split; eapply continued_trans; try exact I1; eassumption.
    + destruct (reports_step _ _ R) as (new & Q1 & Q2). exists (more ++ new). split; [rewrite Q1, I3, app_assoc; reflexivity|].
      intros St r Hr. apply in_app_iff in Hr as [Hr|Hr]; [auto|]. rewrite (Q2 St r Hr). eapply Qcle_trans; eassumption.
Qed.
End Grow.
