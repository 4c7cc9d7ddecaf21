(** Runs with decimal times and with exact ones. *)
From Coq Require Import QArith Qcanon ZArith List Bool Arith Lia.
From Verif Require Import Base Num SeqModel SimulatorModel SimulatorSpec DictLemmas SimulatorProofs SimulatorProofs2 SimulatorProofs3 SimulatorProofs4 SimulatorProofs5 DecModel DecSpec DecProofs.
Open Scope Qc_scope.

Section Same.
Context {W : world}.
Notation st := (st W).

Lemma need_same d (s : st) : few_digits d (time s) -> (forall l, s_last (sm s) = Some l -> few_digits d l) -> need_commands_with W dminus s = need_commands s.
Proof. intros T L. unfold need_commands_with, need_commands. destruct (s_last (sm s)) as [l|]; [|reflexivity]. rewrite (few_minus d) by auto. reflexivity. Qed.

Lemma player_same d t (s : st) p : few_digits d (time s) -> (forall l, s_last (sm s) = Some l -> few_digits d l) -> update_player_with W dminus t s p = update_player t s p.
Proof.
  intros T L. unfold update_player_with, update_player. destruct (dgetE (c_models (cx s)) p) as [m|]; [|reflexivity].
  destruct (with_logger s p _) as [s1|] eqn:E; [|reflexivity]. apply with_logger_ok in E as (l & l1 & _ & _ & ->). rewrite (need_same d); [reflexivity|exact T|exact L].
Qed.
Lemma players_same d t l : forall s : st, few_digits d (time s) -> (forall l, s_last (sm s) = Some l -> few_digits d l) -> rfold (update_player_with W dminus t) s l = rfold (update_player t) s l.
Proof.
  induction l as [|p r IH]; intros s T L; [reflexivity|]. cbn [rfold]. rewrite (player_same d) by assumption. destruct (update_player t s p) as [s'|] eqn:E; [|reflexivity].
  apply update_player_ok in E as (F & _). apply IH; [unfold time; rewrite (f_time _ _ F); exact T|rewrite (f_last _ _ F); exact L].
Qed.
Lemma players_frame t l : forall s s' : st, rfold (update_player t) s l = Ok s' -> frame s s'.
Proof.
  induction l as [|p r IH]; intros s s' H; cbn [rfold] in H; [injection H as <-; apply frame_refl|].
  destruct (update_player t s p) as [s1|] eqn:E; [|discriminate]. apply update_player_ok in E as (F & _). exact (frame_trans _ _ _ F (IH _ _ H)).
Qed.

(** What the step needs to know. *)
Definition small d (s : st) : Prop :=
  few_digits d (time s) /\ few_digits d (dt (param s)) /\ few_digits d (after_collision (param s)) /\ (forall l, s_last (sm s) = Some l -> few_digits d l) /\ (forall f, c_first (cx s) = Some f -> few_digits d f).

Lemma step_same d (s : st) : NoDup (akeys (c_players (cx s))) -> NoDup (akeys (g_missions (c_cfg (cx s)))) -> small d s -> step_with W dplus dminus s = step s.
Proof.
  intros N NM (T & D & A & L & C). unfold step_with, step.
  assert (E1 : pre_update_with W dminus s = pre_update s) by (unfold pre_update_with, pre_update; rewrite (need_same d) by assumption; reflexivity).
  rewrite E1. destruct (pre_update s) as [s1|] eqn:P; [|reflexivity]. apply pre_update_ok in P as (P1 & _ & P3 & _).
  assert (T1 : few_digits d (time s1)) by (unfold time; rewrite P1; exact T). assert (L1 : forall l, s_last (sm s1) = Some l -> few_digits d l) by (rewrite P3; exact L).
  assert (E2 : update_with W dminus s1 = update s1).
  { unfold update_with, update. cbv zeta. rewrite (players_same d) by assumption. destruct (rfold _ _ _) as [s'|] eqn:R; [|reflexivity]. apply players_frame in R.
    rewrite (need_same d); [reflexivity|unfold time; rewrite (f_time _ _ R); exact T1|rewrite (f_last _ _ R); exact L1]. }
  rewrite E2. destruct (update s1) as [s2|] eqn:U; [|reflexivity]. apply update_ok in U as ((s1' & F & U1 & _) & _); [|rewrite P1; exact N].
  assert (T2 : time s2 = time s) by (unfold time; rewrite U1, (f_time _ _ F), P1; reflexivity). assert (D2 : c_cfg (cx s2) = c_cfg (cx s)) by (rewrite U1, (f_cfg _ _ F), P1; reflexivity).
  unfold post_update_with, post_update. cbv zeta. replace (dplus (time s2) (dt (param s2))) with (time s2 + dt (param s2)) by (symmetry; apply (few_plus d); [rewrite T2; exact T|unfold param; rewrite D2; exact D]).
  match goal with |- context [remove_finished ?x] => set (s2t := x) end. destruct (remove_finished s2t) as [s3|] eqn:R; [|reflexivity].
  apply remove_finished_ok in R as (R & _); [| |cbn; rewrite D2; exact NM]; [|cbn; rewrite U1, (f_players _ _ F), P1; exact N].
  assert (E3 : termination_with W dplus (cx s3) = termination (cx s3)).
  { unfold termination_with, termination. assert (X : past_collision_with dplus (c_time (cx s3)) (c_first (cx s3)) (after_collision (g_param (c_cfg (cx s3)))) = past_collision (c_time (cx s3)) (c_first (cx s3)) (after_collision (g_param (c_cfg (cx s3))))); [|rewrite X; reflexivity].
    unfold past_collision_with, past_collision. rewrite (r_first _ _ R), (r_cfg _ _ R). change (c_first (cx s2t)) with (c_first (cx s2)). change (c_cfg (cx s2t)) with (c_cfg (cx s2)). rewrite D2, U1, (f_first _ _ F), P1. destruct (c_first (cx s)) as [f|] eqn:Ef; [|reflexivity]. rewrite (few_plus d); [reflexivity|apply C; reflexivity|exact A]. }
  unfold maybe_terminate. rewrite E3. reflexivity.
Qed.

(** Times stay small while the simulation runs. *)
Record good d (lo : Qc) (s : st) : Prop := mkGood {
  g_inv : Inv s;
  g_lo : lo <= time s;
  g_small : c_term (cx s) = false -> small d s
}.
Lemma good_step d lo s s' : 0 < dt (param s) -> reports_stamped W -> few_digits d lo -> few_digits d (max_sim_time (param s)) -> c_term (cx s) = false -> good d lo s -> step s = Ok s' -> good d lo s' /\ param s' = param s.
Proof.
  intros Hd St Lo Mx Tm G H. destruct G as [I GL GS]. destruct (GS Tm) as (T & D & A & L & C). apply step_ok in H; [|apply (i_nd _ I)|apply (i_ndm _ I)].
  assert (Pm : param s' = param s) by (unfold param; rewrite (sr_cfg _ _ H); reflexivity).
  split; [|exact Pm]. constructor; [apply (Inv_step _ _ Hd I H)|rewrite (sr_time _ _ H); qlra|].
  intro Tm'. assert (T' : few_digits d (time s')).
  { apply (few_between d _ (time s') _ lo (max_sim_time (param s)) T D (sr_time _ _ H) Lo Mx); [rewrite (sr_time _ _ H); qlra|].
    apply Qcnot_lt_le. intro X. assert (E : c_term (cx s') = true); [|congruence]. apply (sr_term _ _ H). apply stop_time. cbn. unfold param in X. rewrite (sr_cfg _ _ H). exact X. }
  unfold small. rewrite Pm. split; [exact T'|]. split; [exact D|]. split; [exact A|]. split.
  - rewrite (sr_last _ _ H). destruct (need_commands s); [intros l [= <-]; exact T|exact L].
  - pose proof (sr_coll _ _ H) as K. rewrite Tm' in K. destruct K as (np & ne & new & _ & _ & _ & _ & _ & _ & _ & K). destruct (K St) as [_ ->]. destruct new as [|r rest]; [exact C|]. intros f E. unfold earlier in E. destruct (c_first (cx s)) as [f0|] eqn:E0; [|injection E as <-; exact T'].
    destruct (qltb (time s') f0); injection E as <-; [exact T'|apply C; reflexivity].
Qed.

Lemma loop_same d lo fuel : reports_stamped W -> few_digits d lo -> forall s, 0 < dt (param s) -> few_digits d (max_sim_time (param s)) -> good d lo s -> loop_with W dplus dminus fuel s = loop fuel s.
Proof.
  intros St Lo. induction fuel as [|n IH]; intros s Hd Mx G; [reflexivity|]. cbn [loop_with loop]. destruct (c_term (cx s)) eqn:Tm; [reflexivity|].
  rewrite (step_same d); [|apply (i_nd _ (g_inv _ _ _ G))|apply (i_ndm _ (g_inv _ _ _ G))|apply (g_small _ _ _ G Tm)]. destruct (step s) as [s'|] eqn:E; [|reflexivity].
  destruct (good_step d lo s s' Hd St Lo Mx Tm G E) as [G' Pm]. apply IH; [rewrite Pm; exact Hd|rewrite Pm; exact Mx|exact G'].
Qed.

Lemma run_same d fuel (m : simulator W) c : valid_ctx c -> unused m -> 0 < dt (g_param (c_cfg c)) -> reports_stamped W -> few_times d c -> run_decimal fuel m c = run fuel m c.
Proof.
  intros V U Hd St (F1 & F2 & F3 & F4 & F5). unfold run_decimal, run_with, run. destruct (init_run c m) as [s0|] eqn:E; [|reflexivity].
  assert (Sd : started c s0) by (split; [exact V|]; exists m; auto). assert (I := started_inv _ _ Sd).
  apply init_run_ok in E as (Q1&_&_&_&_&Q6&_&_&Q9&_&Q11&_).
  assert (Pm : param s0 = g_param (c_cfg c)) by (unfold param; rewrite Q1; reflexivity).
  rewrite (loop_same d (time s0)); [reflexivity|exact St|unfold time; rewrite Q6; exact F1|rewrite Pm; exact Hd|rewrite Pm; exact F3|].
  constructor; [exact I|apply Qcle_refl|]. intros _. unfold small, time. rewrite Pm, Q6, Q9, Q11, U. split; [exact F1|]. split; [exact F2|]. split; [exact F4|]. split; [intros l X; discriminate|exact F5].
Qed.
End Same.
