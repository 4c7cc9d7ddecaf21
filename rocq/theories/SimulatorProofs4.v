(** One iteration of the simulator loop. *)
From Coq Require Import QArith Qcanon ZArith List Bool Arith Lia Sorted.
From Verif Require Import Base Num SeqModel SeqSpec SeqProofs SeqProofs2 DictLemmas SimulatorModel SimulatorSpec
  SimulatorProofs SimulatorProofs2 SimulatorProofs3.
Import ListNotations.
Open Scope Qc_scope.

Section StepOk.
Context {W : world}.
Implicit Types (s : st W) (p q : player).

(** The goal of [p], if any, is fulfilled in state [x] at [t]. *)
Definition goal_met s p (x : w_X W) (t : Qc) : Prop :=
  exists g, dget (g_missions (c_cfg (cx s))) p = Some g /\ goal_done W g x t = Ok true.

Inductive pstep s p s' : Prop :=
| pstep_intro m m1 m2 u l l' (fin : bool) :
    model_of s p = Some m -> model_step W m u (dt (param s)) = Ok m1 -> model_of s' p = Some m2 ->
    moves_of p (ev s') = moves_of p (ev s) ++ [(time s, u, m, m1)] ->
    logger_of s p = Some l -> logger_of s' p = Some l' ->
    lg_states l' = (let b := snoc (lg_states l) (time s) (get_state W m) in
                    if fin then snoc b (time s') (get_state W m1) else b) ->
    (fin = true <-> ~ active s' p) ->
    (fin = true <-> goal_met s p (get_state W m1) (time s')) ->
    (fin = true -> m2 = m1) -> (c_term (cx s') = true -> m2 = m1) ->
    (resolution_keeps_footprint W -> footprint W m2 = footprint W m1) ->
    dget (s_cmds (sm s')) p = Some u ->
    (if need_commands s then
       exists f f' o a a' a'' x full,
         snapshot s full /\
         sense W f (g_scen (c_cfg (cx s))) full p = Ok (f', o) /\
         get_sensor (cx s) p = Ok f /\
         dget (c_players (cx s)) p = Some a /\ agent_cmds W a o = Ok (a', u) /\ agent_extra W a' = Ok (a'', x) /\
         lg_commands l' = snoc (lg_commands l) (time s) u /\ lg_info l' = snoc (lg_info l) (time s) (cpu_time W p (time s)) /\
         lg_extra l' = opt_snoc (lg_extra l) (time s) x /\
         asks_of p (ev s') = asks_of p (ev s) ++ [(time s, full, o, u)]
     else dget (s_cmds (sm s)) p = Some u /\
          lg_commands l' = lg_commands l /\ lg_info l' = lg_info l /\ lg_extra l' = lg_extra l /\
          asks_of p (ev s') = asks_of p (ev s)) ->
    pstep s p s'.

Record srel s s' : Prop := mkSrel {
  sr_cfg : c_cfg (cx s') = c_cfg (cx s);
  sr_time : time s' = time s + dt (param s);
  sr_models : akeys (c_models (cx s')) = akeys (c_models (cx s));
  sr_log : c_log (cx s') = c_log (cx s);
  sr_last : s_last (sm s') = if need_commands s then Some (time s) else s_last (sm s);
  sr_nodup : NoDup (akeys (c_players (cx s')));
  sr_order : exists f, akeys (c_players (cx s')) = filter f (akeys (c_players (cx s)));
  sr_sensors : forall q, In q (akeys (c_sensors (cx s))) -> In q (akeys (c_sensors (cx s')));
  sr_logkeys : forall q, In q (akeys (s_logs (sm s))) -> In q (akeys (s_logs (sm s')));
  sr_act : forall p, active s p -> pstep s p s';
  sr_inact : forall p, ~ active s p -> ~ active s' p /\ model_of s' p = model_of s p /\
     logger_of s' p = logger_of s p /\ dget (s_cmds (sm s')) p = dget (s_cmds (sm s)) p /\
     asks_of p (ev s') = asks_of p (ev s) /\ moves_of p (ev s') = moves_of p (ev s);
  sr_leaves : forall p t, In (p, t) (leaves_of (ev s')) <->
     In (p, t) (leaves_of (ev s)) \/ (t = time s' /\ active s p /\ ~ active s' p);
  sr_term : c_term (cx s') = true <-> stop_reason (set_reports (cx s') (c_reports (cx s)) (c_first (cx s)));
  sr_coll : if c_term (cx s') then
      c_reports (cx s') = c_reports (cx s) /\ c_first (cx s') = c_first (cx s) /\
      pairs_of (ev s') = pairs_of (ev s) /\ envs_of (ev s') = envs_of (ev s) /\
      expected_reports (ev s') = expected_reports (ev s)
    else exists np ne new,
      c_reports (cx s') = c_reports (cx s) ++ new /\
      expected_reports (ev s') = expected_reports (ev s) ++ new /\
      pairs_of (ev s') = pairs_of (ev s) ++ map (fun pq => (fst pq, snd pq, time s')) np /\
      envs_of (ev s') = envs_of (ev s) ++ ne /\
      (forall pq, In pq np -> In pq (combinations2 (akeys (c_players (cx s'))))) /\
      (resolution_keeps_footprint W ->
         np = filter (fun pq => touches s' (fst pq) (snd pq)) (combinations2 (akeys (c_players (cx s')))) /\
         ne = flat_map (fun p => map (fun i => (p, i, time s')) (env_candidates s' p)) (akeys (c_players (cx s')))) /\
      (forall p i t, In (p, i, t) ne -> active s' p /\ t = time s') /\
      (reports_stamped W -> Forall (fun r => r_time r = time s') new /\
         c_first (cx s') = match new with [] => c_first (cx s) | _ => earlier (time s') (c_first (cx s)) end)
}.

Lemma termination_iff (c : ctx W) : termination c = true <-> stop_reason c.
Proof.
  unfold termination. set (cond := _ || _ || _).
  assert (Hc : cond = true <-> max_sim_time (g_param (c_cfg c)) < c_time c \/
    (exists f, c_first c = Some f /\ f + after_collision (g_param (c_cfg c)) < c_time c) \/ c_players c = []).
  { unfold cond. rewrite !orb_true_iff, qltb_lt. unfold past_collision. split.
    - intros [[H|H]|H].
      + left; exact H.
      + right; left. destruct (c_first c) as [f|]; [|discriminate]. apply qltb_lt in H. eauto.
      + right; right. destruct (c_players c); [reflexivity|discriminate].
    - intros [H|[(f & -> & H)| ->]].
      + left; left; exact H.
      + left; right. apply qltb_lt; exact H.
      + right; reflexivity. }
  destruct cond eqn:Ec; cbn [negb].
  - split; [|reflexivity]. intros _. destruct (proj1 Hc eq_refl) as [H|[(f & H1 & H2)|H]].
    + apply stop_time; exact H.
    + eapply stop_collision; eassumption.
    + apply stop_empty; exact H.
  - assert (Hn : ~ (max_sim_time (g_param (c_cfg c)) < c_time c \/
      (exists f, c_first c = Some f /\ f + after_collision (g_param (c_cfg c)) < c_time c) \/ c_players c = []))
      by (intro C; apply Hc in C; discriminate).
    assert (Hs : stop_reason c <-> g_missions (c_cfg c) <> [] /\
       (forall p, In p (akeys (g_missions (c_cfg c))) -> ~ In p (akeys (c_players c)))).
    { split; [|intros []; apply stop_missions; assumption].
      intros [H|f H1 H2|H|H1 H2]; [exfalso; apply Hn; auto|exfalso; apply Hn; eauto|exfalso; apply Hn; auto|auto]. }
    rewrite Hs. destruct (g_missions (c_cfg c)) as [|gm r] eqn:Eg.
    + split; [discriminate|]. intros [H _]. congruence.
    + rewrite forallb_forall. split.
      * intro H. split; [discriminate|]. intros p Hp. apply H in Hp. apply negb_true_iff, dmem_false in Hp. exact Hp.
      * intros [_ H] p Hp. apply negb_true_iff, dmem_false. apply H; exact Hp.
Qed.

Lemma filter_ext_in' {B} (f g : B -> bool) l : (forall x, In x l -> f x = g x) -> filter f l = filter g l.
Proof. apply filter_ext_in. Qed.

Lemma step_ok s s' : NoDup (akeys (c_players (cx s))) -> NoDup (akeys (g_missions (c_cfg (cx s)))) ->
  step s = Ok s' -> srel s s'.
Proof.
  intros N NM H. unfold step in H.
  destruct (pre_update s) as [s1|] eqn:E1; [|discriminate].
  apply pre_update_ok in E1 as (P1 & P2 & P3 & P4 & P5 & P6 & P7).
  destruct (update s1) as [s2|] eqn:E2; [|discriminate].
  assert (T1 : time s1 = time s) by (unfold time; rewrite P1; reflexivity).
  assert (Pm1 : param s1 = param s) by (unfold param; rewrite P1; reflexivity).
  assert (Nd1 : need_commands s1 = need_commands s).
  { unfold need_commands. rewrite P3, T1, Pm1. reflexivity. }
  apply update_ok in E2 as ((s1' & F & U1 & U2 & U3 & U4 & U5) & U6 & U7 & U8 & U9 & U10); [|rewrite P1; exact N].
  rewrite Nd1, T1, P3 in U6. rewrite T1 in U9.
  assert (A1 : forall p, active s1 p <-> active s p) by (intro p; unfold active; rewrite P1; tauto).
  assert (K2 : akeys (c_players (cx s2)) = akeys (c_players (cx s))).
  { rewrite U1, (f_players _ _ F), P1. reflexivity. }
  assert (C2 : c_cfg (cx s2) = c_cfg (cx s)) by (rewrite U1, (f_cfg _ _ F), P1; reflexivity).
  assert (T2 : time s2 = time s) by (unfold time; rewrite U1, (f_time _ _ F), P1; reflexivity).
  unfold post_update in H. cbv zeta in H.
  set (s2t := upd_cx s2 (set_time (cx s2) (time s2 + dt (param s2)))) in H.
  destruct (remove_finished s2t) as [s3|] eqn:E3; [|discriminate].
  assert (Tt : time s2t = time s + dt (param s)).
  { unfold s2t, time at 1; cbn. rewrite T2. unfold param. rewrite C2. reflexivity. }
  apply remove_finished_ok in E3 as (R & N3 & Ac3 & Ag3 & Fl3 & Lf3 & Lu3 & Lv3 & Lv3');
    [|cbn; rewrite K2; exact N|cbn; rewrite C2; exact NM].
  assert (A2 : forall p, active s2t p <-> active s p) by (intro p; unfold active; cbn; rewrite K2; tauto).
  set (s4 := maybe_terminate s3) in H.
  assert (T4 : time s4 = time s + dt (param s)).
  { rewrite <- Tt. unfold time, s4; cbn. apply (r_tm _ _ R). }
  assert (C4 : c_cfg (cx s4) = c_cfg (cx s)).
  { cbn. rewrite (r_cfg _ _ R). exact C2. }
  (* the collision phase *)
  assert (G : exists np ne new,
     crel s4 s' (map (fun pq => (fst pq, snd pq, time s4)) np) ne new /\
     (c_term (cx s4) = true -> s' = s4 /\ np = [] /\ ne = [] /\ new = []) /\
     (forall pq, In pq np -> In pq (combinations2 (akeys (c_players (cx s4))))) /\
     (forall p i t, In (p, i, t) ne -> active s4 p /\ t = time s4) /\
     (c_term (cx s4) = false ->
       (resolution_keeps_footprint W ->
         np = filter (fun pq => touches s' (fst pq) (snd pq)) (combinations2 (akeys (c_players (cx s4)))) /\
         ne = flat_map (fun p => map (fun i => (p, i, time s4)) (env_candidates s' p)) (akeys (c_players (cx s4)))))).
  { destruct (c_term (cx s4)) eqn:Et.
    - injection H as <-. exists [], [], []. split; [apply crel_refl|]. split; [auto|].
      split; [intros pq []|]. split; [intros p i t []|]. discriminate.
    - destruct (check_env s4) as [s5|] eqn:E5; [|discriminate].
      apply check_env_ok in E5 as [n1 Ce]; [|exact N3].
      apply check_players_ok in H as (np & n2 & Cp & Sp & Kp); [|rewrite (cr_players _ _ _ _ _ Ce); exact N3].
      assert (T5 : time s5 = time s4) by (apply (cr_time _ _ _ _ _ Ce)).
      assert (K5 : akeys (c_players (cx s5)) = akeys (c_players (cx s4))) by (rewrite (cr_players _ _ _ _ _ Ce); reflexivity).
      rewrite T5 in Cp. rewrite K5 in Sp, Kp.
      eexists np, _, (n1 ++ n2). pose proof (crel_trans _ _ _ _ _ _ _ _ _ Ce Cp) as C. rewrite app_nil_r in C. cbn [app] in C.
      split; [exact C|]. split; [discriminate|]. split; [exact Sp|]. split.
      + intros p i t Hi. apply in_flat_map in Hi as (y & Hy & Hi). apply in_map_iff in Hi as (j & [= <- <- <-] & Hj).
        split; [exact Hy|reflexivity].
      + intros _ K. split.
        * rewrite (Kp K). apply filter_ext. intros [a b]; cbn. symmetry.
          apply touches_foot. apply (cr_foot _ _ _ _ _ Cp K).
        * apply flat_map_ext. intro p. f_equal. unfold env_candidates.
          pose proof (cr_foot _ _ _ _ _ C K p) as Hf. rewrite (cr_cfg _ _ _ _ _ C).
          destruct (model_of s' p), (model_of s4 p); cbn in Hf; try discriminate; congruence. }
  clear H. destruct G as (np & ne & new & C & Gt & Gp & Ge & Gk).
  assert (T' : time s' = time s + dt (param s)) by (rewrite <- T4; apply (cr_time _ _ _ _ _ C)).
  assert (T'2 : time s' = time s2t) by congruence.
  assert (T'4 : time s' = time s4) by congruence.
  assert (K4 : akeys (c_players (cx s')) = akeys (c_players (cx s4))) by (rewrite (cr_players _ _ _ _ _ C); reflexivity).
  assert (A' : forall p, active s' p <-> active s p /\ ~ finished s2t p).
  { intro p. rewrite <- A2, <- Ac3. unfold active. rewrite K4. reflexivity. }
  assert (Lg' : forall p, logger_of s' p = logger_of s3 p).
  { intro p. unfold logger_of. rewrite (cr_sm _ _ _ _ _ C). reflexivity. }
  assert (Cm' : s_cmds (sm s') = s_cmds (sm s2)).
  { rewrite (cr_sm _ _ _ _ _ C). cbn. rewrite (r_cmds _ _ R). reflexivity. }
  assert (As' : forall p, asks_of p (ev s') = asks_of p (ev s2)).
  { intro p. rewrite (cr_asks _ _ _ _ _ C). cbn. apply (r_asks _ _ R). }
  assert (Mv' : forall p, moves_of p (ev s') = moves_of p (ev s2)).
  { intro p. rewrite (cr_moves _ _ _ _ _ C). cbn. apply (r_moves _ _ R). }
  assert (Mo4 : forall p, model_of s4 p = model_of s2 p).
  { intro p. unfold model_of; cbn. rewrite (r_models _ _ R). reflexivity. }
  assert (Mo' : forall p, ~ active s4 p -> model_of s' p = model_of s2 p).
  { intros p Hp. rewrite <- Mo4. apply (cr_untouched _ _ _ _ _ C).
    - intros a b t Hi. apply in_map_iff in Hi as ([a' b'] & [= <- <- <-] & Hi). apply Gp in Hi.
      apply combinations2_In in Hi as (i & j & _ & Hi & Hj). apply nth_error_In in Hi. apply nth_error_In in Hj.
      split; intros ->; apply Hp; assumption.
    - intros i t Hi. apply Ge in Hi as [Hi _]. contradiction. }
  assert (A4 : forall p, active s4 p <-> active s' p) by (intro p; unfold active; rewrite K4; tauto).
  destruct U7 as (U7a & U7b & U7c). pose proof (r_coll _ _ R) as (Rc1 & Rc2 & Rc3). cbn in Rc1, Rc2, Rc3.
  assert (Ep : pairs_of (ev s4) = pairs_of (ev s)) by (cbn; rewrite Rc1, U7a, P2; reflexivity).
  assert (Ee : envs_of (ev s4) = envs_of (ev s)) by (cbn; rewrite Rc2, U7b, P2; reflexivity).
  assert (Er : expected_reports (ev s4) = expected_reports (ev s)) by (cbn; rewrite Rc3, U7c, P2; reflexivity).
  assert (Rp : c_reports (cx s4) = c_reports (cx s)) by (cbn; rewrite (r_reports _ _ R); cbn; rewrite U1, (f_reports _ _ F), P1; reflexivity).
  assert (Fi : c_first (cx s4) = c_first (cx s)) by (cbn; rewrite (r_first _ _ R); cbn; rewrite U1, (f_first _ _ F), P1; reflexivity).
  constructor.
  - rewrite (cr_cfg _ _ _ _ _ C). exact C4.
  - exact T'.
  - rewrite (cr_models _ _ _ _ _ C). cbn. rewrite (r_models _ _ R). cbn. rewrite U1, (f_models _ _ F), P1. reflexivity.
  - rewrite (cr_log _ _ _ _ _ C). cbn. rewrite (r_log _ _ R). cbn. rewrite U1, (f_log _ _ F), P1. reflexivity.
  - rewrite (cr_sm _ _ _ _ _ C). cbn. rewrite (r_last _ _ R). cbn. exact U6.
  - rewrite K4. exact N3.
  - rewrite K4. destruct Fl3 as [f Hf]. exists f. rewrite <- K2. exact Hf.
  - intros q Hq. rewrite (cr_sensors _ _ _ _ _ C). cbn. rewrite (r_sensors _ _ R). cbn. rewrite U1. apply (f_sensors _ _ F). rewrite P1. exact Hq.
  - intros q Hq. rewrite (cr_sm _ _ _ _ _ C). cbn. apply (r_logkeys _ _ R). cbn. rewrite U5. apply (f_logkeys _ _ F). rewrite P5. exact Hq.
  - intros p Hp. apply A1 in Hp as Hp1. destruct (U9 p Hp1) as [m m' u l l' H1 H2 H3 H4 H5 H6 H7 H8 H9].
    apply A2 in Hp as Hp2.
    rewrite Pm1 in H2. rewrite Nd1 in H9. rewrite P2 in H8.
    unfold model_of in H1. rewrite P1 in H1. unfold logger_of in H4. rewrite P5 in H4.
    assert (Hm2 : exists m2, model_of s' p = Some m2 /\ (~ active s' p -> m2 = m') /\ (c_term (cx s') = true -> m2 = m') /\
              (resolution_keeps_footprint W -> footprint W m2 = footprint W m')).
    { assert (Ink : In p (akeys (c_models (cx s')))).
      { rewrite (cr_models _ _ _ _ _ C). cbn. rewrite (r_models _ _ R). cbn. eapply dget_Some_In. exact H3. }
      apply In_keys_dget in Ink as [m2 Hm2]. exists m2. split; [exact Hm2|]. split; [|split].
      - intro Hn. rewrite <- A4 in Hn. apply Mo' in Hn. unfold model_of in *. congruence.
      - intro Ht. rewrite (cr_term _ _ _ _ _ C) in Ht. apply Gt in Ht as [-> _]. change (model_of s4 p = Some m2) in Hm2. rewrite Mo4 in Hm2. congruence.
      - intro K. pose proof (cr_foot _ _ _ _ _ C K p) as Hf. change (dget (c_models (cx s')) p) with (model_of s' p) in Hm2.
        rewrite Hm2, Mo4, H3 in Hf. cbn in Hf. congruence. }
    destruct Hm2 as (m2 & M1 & M2 & M3 & M4).
    assert (Hfm : finished s2t p <-> goal_met s p (get_state W m') (time s')).
    { unfold finished, goal_met. change (c_cfg (cx s2t)) with (c_cfg (cx s2)). rewrite C2. split.
      - intros (g & mm & G1 & G2 & G3). exists g. split; [exact G1|]. rewrite T'2. change (model_of s2 p = Some mm) in G2.
        assert (mm = m') by congruence. subst mm. exact G3.
      - intros (g & G1 & G2). exists g, m'. split; [exact G1|]. split; [exact H3|]. rewrite <- T'2. exact G2. }
    assert (Dec : goal_met s p (get_state W m') (time s') \/ ~ goal_met s p (get_state W m') (time s')).
    { unfold goal_met. destruct (dget (g_missions (c_cfg (cx s))) p) as [g|] eqn:Eg.
      - destruct (goal_done W g (get_state W m') (time s')) as [[]|] eqn:Ed.
        + left; eauto.
        + right. intros (g' & [= <-] & G2). congruence.
        + right. intros (g' & [= <-] & G2). congruence.
      - right. intros (g' & G1 & _). discriminate. }
    assert (Lg4 : exists l'', logger_of s' p = Some l'' /\
        (goal_met s p (get_state W m') (time s') -> l'' = mkLogger (snoc (lg_states l') (time s') (get_state W m')) (lg_commands l') (lg_extra l') (lg_info l')) /\
        (~ goal_met s p (get_state W m') (time s') -> l'' = l')).
    { destruct Dec as [D|D].
      - apply Hfm in D as D'. destruct (Lf3 p Hp2 D') as (l0 & m0 & L1 & L2 & L3).
        exists (mkLogger (snoc (lg_states l') (time s') (get_state W m')) (lg_commands l') (lg_extra l') (lg_info l')).
        change (logger_of s2 p = Some l0) in L1. change (model_of s2 p = Some m0) in L2. rewrite Lg', L3. split; [|split]; [|reflexivity|contradiction].
        assert (l0 = l') by congruence. assert (m0 = m') by congruence. subst. rewrite T'2. reflexivity.
      - exists l'. rewrite Lg', Lu3; [|intros [_ C']; apply D; apply Hfm; exact C']. split; [exact H5|]. split; [contradiction|reflexivity]. }
    destruct Lg4 as (l'' & L1 & L2 & L3).
    assert (NA : ~ active s' p <-> goal_met s p (get_state W m') (time s')).
    { rewrite A', <- Hfm. split; [|tauto]. intro Hn. destruct Dec as [D|D]; [apply Hfm; exact D|]. exfalso. apply Hn. split; [exact Hp|]. rewrite Hfm. exact D. }
    assert (Lcmd : lg_commands l'' = lg_commands l' /\ lg_info l'' = lg_info l' /\ lg_extra l'' = lg_extra l').
    { destruct Dec as [D|D]; [rewrite (L2 D)|rewrite (L3 D)]; auto. }
    destruct Lcmd as (Lc1 & Lc2 & Lc3).
    assert (Rest : if need_commands s then
       exists f f' o a a' a'' x full,
         snapshot s full /\
         sense W f (g_scen (c_cfg (cx s))) full p = Ok (f', o) /\
         get_sensor (cx s) p = Ok f /\
         dget (c_players (cx s)) p = Some a /\ agent_cmds W a o = Ok (a', u) /\ agent_extra W a' = Ok (a'', x) /\
         lg_commands l'' = snoc (lg_commands l) (time s) u /\ lg_info l'' = snoc (lg_info l) (time s) (cpu_time W p (time s)) /\
         lg_extra l'' = opt_snoc (lg_extra l) (time s) x /\
         asks_of p (ev s') = asks_of p (ev s) ++ [(time s, full, o, u)]
     else dget (s_cmds (sm s)) p = Some u /\
          lg_commands l'' = lg_commands l /\ lg_info l'' = lg_info l /\ lg_extra l'' = lg_extra l /\
          asks_of p (ev s') = asks_of p (ev s)).
    { destruct (need_commands s).
      - destruct H9 as (f & f' & o & a & a' & a'' & x & B1 & B2 & B3 & B4 & B5 & B6 & B7 & B8 & B9 & B10).
        rewrite P1 in B1, B2, B3. rewrite P2 in B10.
        exists f, f', o, a, a', a'', x, (s_obs (sm s1)). split; [apply P6; reflexivity|].
        rewrite Lc1, Lc2, Lc3, As'. repeat (split; [assumption|]). exact B10.
      - destruct H9 as (B1 & B2 & B3 & B4 & B5 & B6). rewrite P4 in B1. rewrite P2 in B6.
        rewrite Lc1, Lc2, Lc3, As'. repeat (split; [assumption|]). exact B6. }
    destruct Dec as [D|D].
    + eapply pstep_intro with (fin := true); try eassumption.
      * rewrite Mv'. exact H8.
      * rewrite (L2 D). cbn. rewrite H6. reflexivity.
      * rewrite NA. tauto.
      * tauto.
      * intros _. apply M2. apply NA; exact D.
      * rewrite Cm'. exact H7.
    + eapply pstep_intro with (fin := false); try eassumption.
      * rewrite Mv'. exact H8.
      * rewrite (L3 D). exact H6.
      * rewrite NA. split; [discriminate|contradiction].
      * split; [discriminate|contradiction].
      * discriminate.
      * rewrite Cm'. exact H7.
  - intros p Hp. assert (Hp' : ~ active s' p) by (rewrite A'; tauto). split; [exact Hp'|].
    rewrite <- A1 in Hp. apply U10 in Hp as V. unfold view in V. injection V as V1 V2 V3 V4 V5 V6 V7.
    unfold model_of, logger_of in *. rewrite P1 in V1. rewrite P4 in V3. rewrite P5 in V2. rewrite P2 in V4, V5.
    split; [|split; [|split; [|split]]].
    + rewrite Mo'; [exact V1|rewrite A4; exact Hp'].
    + specialize (Lu3 p). specialize (Lg' p). unfold logger_of in *. rewrite Lg', Lu3; [exact V2|].
      intros [Ha _]. rewrite A2 in Ha. rewrite A1 in Hp. contradiction.
    + rewrite Cm'. exact V3.
    + rewrite As'. exact V4.
    + rewrite Mv'. exact V5.
  - intros p t. rewrite (cr_leaves _ _ _ _ _ C). change (ev s4) with (ev s3).
    assert (L2 : leaves_of (ev s2t) = leaves_of (ev s)) by (cbn; rewrite U8, P2; reflexivity).
    destruct (qeqb_spec t (time s')) as [->|Nt].
    + rewrite T'2 at 1. rewrite Lv3, L2, T'2. rewrite A2, A'. split.
      * intros [?|[? ?]]; [left; assumption|right; split; [reflexivity|split; [assumption|tauto]]].
      * intros [?|(_ & ? & Hn)]; [left; assumption|right]. split; [assumption|].
        destruct (U9 p (proj2 (A1 p) H)) as [m m' u l l' H1 H2 H3 H4 H5 H6 H7 H8 H9].
        unfold finished. unfold model_of; cbn. unfold model_of in H3. rewrite H3.
        destruct (dget (g_missions (c_cfg (cx s2))) p) as [g|] eqn:Eg.
        -- destruct (goal_done W g (get_state W m') (time s2t)) as [[]|] eqn:Ed.
           ++ eauto 6.
           ++ exfalso. apply Hn. split; [assumption|]. intros (g' & mm & G1 & G2 & G3). unfold model_of in G2; cbn in G1, G2. congruence.
           ++ exfalso. apply Hn. split; [assumption|]. intros (g' & mm & G1 & G2 & G3). unfold model_of in G2; cbn in G1, G2. congruence.
        -- exfalso. apply Hn. split; [assumption|]. intros (g' & mm & G1 & _). cbn in G1. congruence.
    + rewrite Lv3' by congruence. rewrite L2. split; [auto|]. intros [?|[? _]]; [assumption|contradiction].
  - rewrite (cr_term _ _ _ _ _ C). change (c_term (cx s4)) with (termination (cx s3)). rewrite termination_iff.
    assert (E : forall c c' : ctx W, c_cfg c = c_cfg c' -> c_time c = c_time c' -> c_first c = c_first c' -> c_players c = c_players c' -> stop_reason c -> stop_reason c').
    { intros c c' Q1 Q2 Q3 Q4 [H|f H1 H2|H|H1 H2].
      - apply stop_time. congruence.
      - apply stop_collision with f; congruence.
      - apply stop_empty. congruence.
      - apply stop_missions; [congruence|]. intros q Hq. rewrite <- Q4. apply H2. congruence. }
    assert (Fi3 : c_first (cx s3) = c_first (cx s)) by exact Fi.
    split; apply E; cbn; rewrite ?(cr_cfg _ _ _ _ _ C), ?(cr_time _ _ _ _ _ C), ?(cr_players _ _ _ _ _ C), ?Fi3; reflexivity.
  - rewrite (cr_term _ _ _ _ _ C). destruct (c_term (cx s4)) eqn:Et.
    + destruct (Gt eq_refl) as (-> & _). auto.
    + exists np, ne, new. rewrite (cr_reports _ _ _ _ _ C), (cr_expected _ _ _ _ _ C), (cr_pairs _ _ _ _ _ C), (cr_envs _ _ _ _ _ C).
      rewrite Ep, Ee, Er, Rp, K4, T'4. repeat (split; [reflexivity|]). split; [exact Gp|]. split; [exact (Gk eq_refl)|].
      split; [intros p i t Hi; rewrite <- A4; apply Ge in Hi; exact Hi|].
      intro K. split; [apply (cr_stamped _ _ _ _ _ C K)|]. rewrite (cr_first _ _ _ _ _ C K), Fi. reflexivity.
Qed.
End StepOk.
