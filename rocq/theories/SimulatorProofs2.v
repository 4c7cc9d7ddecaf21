(** Effect of the phases of one simulator step. *)
From Coq Require Import QArith Qcanon ZArith List Bool Arith Lia Sorted.
From Verif Require Import Base Num SeqModel SeqSpec SeqProofs SeqProofs2 DictLemmas SimulatorModel SimulatorSpec SimulatorProofs.
Import ListNotations.
Open Scope Qc_scope.

Section Phases.
Context {W : world}.
Implicit Types (s : st W) (p q : player).

Lemma pdone_view t s0 s p s' : frame s0 s -> view s p = view s0 p -> pdone t s p s' -> pdone t s0 p s'.
Proof.
  intros F V [m m' u l l' H1 H2 H3 H4 H5 H6 H7 H8 H9].
  unfold view in V. injection V as V1 V2 V3 V4 V5 V6 V7.
  rewrite (need_frame _ _ F) in H9.
  assert (Hp : param s = param s0) by (unfold param; rewrite (f_cfg _ _ F); reflexivity).
  rewrite Hp in H2.
  eapply pdone_intro with (m := m) (m' := m') (u := u) (l := l) (l' := l'); try assumption; try congruence.
  destruct (need_commands s0).
  - destruct H9 as (f&f'&o&a&a'&a''&x&B1&B2&B3&B4&B5&B6&B7&B8&B9&B10).
    exists f, f', o, a, a', a'', x.
    rewrite <- (f_cfg _ _ F), <- (f_obs _ _ F). split; [exact B1|]. split.
    { unfold get_sensor in *. rewrite <- V7, <- (f_cfg _ _ F). exact B2. }
    repeat (split; [congruence|]). congruence.
  - destruct H9 as (B1&B2&B3&B4&B5&B6). repeat (split; [congruence|]). congruence.
Qed.

Lemma pdone_view' t s p s' s'' : view s'' p = view s' p -> pdone t s p s' -> pdone t s p s''.
Proof.
  intros V [m m' u l l' H1 H2 H3 H4 H5 H6 H7 H8 H9].
  unfold view in V. injection V as V1 V2 V3 V4 V5 V6 V7.
  eapply pdone_intro with (m := m) (m' := m') (u := u) (l := l) (l' := l'); try assumption; try congruence.
  destruct (need_commands s).
  - destruct H9 as (f&f'&o&a&a'&a''&x&B1&B2&B3&B4&B5&B6&B7&B8&B9&B10).
    exists f, f', o, a, a', a'', x. repeat (split; [congruence|]). congruence.
  - destruct H9 as (B1&B2&B3&B4&B5&B6). repeat (split; [congruence|]). congruence.
Qed.

Definition no_coll_events s s' : Prop :=
  pairs_of (ev s') = pairs_of (ev s) /\ envs_of (ev s') = envs_of (ev s) /\
  expected_reports (ev s') = expected_reports (ev s).
Definition same_leaves s s' : Prop := leaves_of (ev s') = leaves_of (ev s).

Lemma pairs_of_cons e (l : list (event W)) : pairs_of (e :: l) = pairs_of l ++ pairs_of [e].
Proof. unfold pairs_of. cbn [rev]. rewrite flat_map_app. reflexivity. Qed.
Lemma envs_of_cons e (l : list (event W)) : envs_of (e :: l) = envs_of l ++ envs_of [e].
Proof. unfold envs_of. cbn [rev]. rewrite flat_map_app. reflexivity. Qed.
Lemma leaves_of_cons e (l : list (event W)) : leaves_of (e :: l) = leaves_of l ++ leaves_of [e].
Proof. unfold leaves_of. cbn [rev]. rewrite flat_map_app. reflexivity. Qed.
Lemma expected_reports_cons e (l : list (event W)) : expected_reports (e :: l) = expected_reports l ++ expected_reports [e].
Proof. unfold expected_reports. cbn [rev]. rewrite flat_map_app. reflexivity. Qed.

Lemma with_logger_ev s p f s' : with_logger s p f = Ok s' -> ev s' = ev s /\ cx s' = cx s.
Proof. intro H. apply with_logger_ok in H as (l & l' & _ & _ & ->). split; reflexivity. Qed.

Lemma update_player_other_events t s p s' : update_player t s p = Ok s' -> no_coll_events s s' /\ same_leaves s s'.
Proof.
  unfold update_player. intro H.
  destruct (dgetE (c_models (cx s)) p) as [m|] eqn:E1; [|discriminate].
  destruct (with_logger s p _) as [s1|] eqn:E2; [|discriminate].
  apply with_logger_ev in E2 as [E2 _].
  destruct (if need_commands s1 then ask s1 p t else Ok s1) as [s2|] eqn:E3; [|discriminate].
  destruct (dgetE (s_cmds (sm s2)) p) as [u|] eqn:E4; [|discriminate].
  destruct (dgetE (c_models (cx s2)) p) as [m2|] eqn:E5; [|discriminate].
  destruct (model_step W m2 u (dt (param s2))) as [m'|] eqn:E6; [|discriminate]. injection H as <-.
  assert (G : exists l, ev s2 = l ++ ev s /\ pairs_of l = [] /\ envs_of l = [] /\ leaves_of l = [] /\ expected_reports l = []
           /\ (length l <= 1)%nat).
  { destruct (need_commands s1).
    - apply ask_ok in E3 as (f&f'&o&a&a'&a''&u'&x&l2&A1&A2&A3&A4&A5&A6&A7&A8&A9&A10&A11&A12&A13).
      exists [EAsk p t (s_obs (sm s1)) o u']. rewrite A12, E2. repeat split; auto.
    - injection E3 as <-. exists []. rewrite E2. repeat split; auto. }
  destruct G as (l & G1 & G2 & G3 & G4 & G5 & G6).
  unfold no_coll_events, same_leaves. cbn. rewrite G1.
  rewrite pairs_of_cons, envs_of_cons, leaves_of_cons, expected_reports_cons.
  change (pairs_of [EMove p t u m2 m']) with (@nil (nat * nat * Qc)).
  change (envs_of [EMove p t u m2 m']) with (@nil (nat * nat * Qc)).
  change (leaves_of [EMove p t u m2 m']) with (@nil (nat * Qc)).
  change (expected_reports [EMove p t u m2 m']) with (@nil (report (w_D W))).
  rewrite !app_nil_r.
  destruct l as [|e [|]]; cbn in G6; [|cbn [app]|lia].
  - repeat split; reflexivity.
  - rewrite pairs_of_cons, envs_of_cons, leaves_of_cons, expected_reports_cons, G2, G3, G4, G5, !app_nil_r.
    repeat split; reflexivity.
Qed.

Lemma update_ok s s' : NoDup (akeys (c_players (cx s))) -> update s = Ok s' ->
  (exists s1, frame s s1 /\ cx s' = cx s1 /\ ev s' = ev s1 /\ s_obs (sm s') = s_obs (sm s1) /\
     s_cmds (sm s') = s_cmds (sm s1) /\ s_logs (sm s') = s_logs (sm s1)) /\
  s_last (sm s') = (if need_commands s then Some (time s) else s_last (sm s)) /\
  no_coll_events s s' /\ same_leaves s s' /\
  (forall p, active s p -> pdone (time s) s p s') /\
  (forall q, ~ active s q -> view s' q = view s q).
Proof.
  unfold update. intros N H. cbv zeta in H.
  destruct (rfold (update_player (time s)) s (akeys (c_players (cx s)))) as [s1|] eqn:E; [|discriminate].
  pose (Q := fun (pre : list nat) (x : st W) => frame s x /\ no_coll_events s x /\ same_leaves s x /\
               (forall p, In p pre -> pdone (time s) s p x) /\ (forall q, ~ In q pre -> view x q = view s q)).
  assert (HQ : Q (akeys (c_players (cx s))) s1).
  { change (Q ([] ++ akeys (c_players (cx s))) s1). eapply rfold_inv_nd; [| |intros|exact E].
    - split; [apply frame_refl|]. split; [repeat split|]. split; [reflexivity|]. split; [intros p []|reflexivity].
    - exact N.
    - destruct H0 as (F & NC & SL & D & V).
      pose proof (update_player_other_events _ _ _ _ H3) as [NC' SL'].
      apply update_player_ok in H3 as (F' & D' & V').
      split; [eapply frame_trans; eassumption|].
      split. { destruct NC as (n1&n2&n3), NC' as (m1&m2&m3). repeat split; congruence. }
      split. { unfold same_leaves in *; congruence. }
      split.
      + intros p Hp. apply in_app_iff in Hp as [Hp|[<-|[]]].
        * eapply pdone_view'; [|apply D; exact Hp]. apply V'. intros ->. contradiction.
        * eapply pdone_view; [exact F|apply V; assumption|exact D'].
      + intros q Hq. rewrite in_app_iff in Hq. rewrite V' by (intros ->; apply Hq; right; left; reflexivity).
        apply V. tauto. }
  destruct HQ as (F & NC & SL & D & V). rewrite (need_frame _ _ F) in H.
  destruct (need_commands s) eqn:Nd; injection H as <-.
  - split; [exists s1; repeat (split; [first [exact F|reflexivity]|]); reflexivity|].
    split; [reflexivity|]. split; [exact NC|]. split; [exact SL|]. split.
    + intros p Hp. eapply pdone_view'; [|apply D; exact Hp]. reflexivity.
    + intros q Hq. rewrite <- (V q Hq). reflexivity.
  - split; [exists s1; repeat (split; [first [exact F|reflexivity]|]); reflexivity|].
    split; [apply (f_last _ _ F)|]. split; [exact NC|]. split; [exact SL|]. split; [exact D|exact V].
Qed.

(** ** pre_update *)
Lemma pre_update_ok s s1 : pre_update s = Ok s1 ->
  cx s1 = cx s /\ ev s1 = ev s /\ s_last (sm s1) = s_last (sm s) /\ s_cmds (sm s1) = s_cmds (sm s) /\
  s_logs (sm s1) = s_logs (sm s) /\
  (need_commands s = true -> snapshot s (s_obs (sm s1))) /\
  (need_commands s = false -> s1 = s).
Proof.
  unfold pre_update. destruct (need_commands s) eqn:N.
  - destruct (rmapM _ _) as [obs|] eqn:E; [|discriminate]. intros [= <-]. cbn.
    do 5 (split; [reflexivity|]). split; [intros _|discriminate].
    apply rmapM_Ok in E. unfold snapshot; cbn. split; [reflexivity|].
    unfold activeb, dmem, model_of. revert obs E.
    induction (c_players (cx s)) as [|[p a] r IH]; intros obs E.
    + inversion E; subst. split; reflexivity.
    + unfold akeys in E. cbn [map fst] in E. inversion E as [|? y ? obs' E1 E2]; subst.
      destruct (IH _ E2) as [I1 I2]. unfold observe in E1.
      destruct (dgetE (c_models (cx s)) p) as [m|] eqn:Em; [|discriminate]. injection E1 as <-.
      apply agetE_Ok in Em. split.
      * unfold akeys in *. cbn [map fst]. f_equal. exact I1.
      * intro q. rewrite !dget_cons. destruct (Nat.eqb_spec p q) as [->|Nq]; [rewrite Em; reflexivity|apply I2].
  - intros [= <-]. do 5 (split; [reflexivity|]). split; [discriminate|reflexivity].
Qed.

(** ** remove_finished *)
Definition finished s p : Prop :=
  exists g m, dget (g_missions (c_cfg (cx s))) p = Some g /\ model_of s p = Some m /\
    goal_done W g (get_state W m) (time s) = Ok true.

Record rframe s s' : Prop := mkRframe {
  r_cfg : c_cfg (cx s') = c_cfg (cx s);
  r_tm : c_time (cx s') = c_time (cx s);
  r_term : c_term (cx s') = c_term (cx s);
  r_reports : c_reports (cx s') = c_reports (cx s);
  r_first : c_first (cx s') = c_first (cx s);
  r_log : c_log (cx s') = c_log (cx s);
  r_models : c_models (cx s') = c_models (cx s);
  r_sensors : c_sensors (cx s') = c_sensors (cx s);
  r_obs : s_obs (sm s') = s_obs (sm s);
  r_last : s_last (sm s') = s_last (sm s);
  r_cmds : s_cmds (sm s') = s_cmds (sm s);
  r_logkeys : forall q, In q (akeys (s_logs (sm s))) -> In q (akeys (s_logs (sm s')));
  r_asks : forall p, asks_of p (ev s') = asks_of p (ev s);
  r_moves : forall p, moves_of p (ev s') = moves_of p (ev s);
  r_coll : no_coll_events s s'
}.
Lemma rframe_refl s : rframe s s.
Proof. constructor; auto. repeat split. Qed.
Lemma rframe_trans s1 s2 s3 : rframe s1 s2 -> rframe s2 s3 -> rframe s1 s3.
Proof.
  intros [? ? ? ? ? ? ? ? ? ? ? ? ? ? c1] [? ? ? ? ? ? ? ? ? ? ? ? ? ? c2]. constructor; try congruence; auto.
  destruct c1 as (?&?&?), c2 as (?&?&?); repeat split; congruence.
Qed.

Lemma remove1_ok s p g s' : NoDup (akeys (c_players (cx s))) -> remove_finished1 s (p, g) = Ok s' ->
  rframe s s' /\ NoDup (akeys (c_players (cx s'))) /\
  (forall q, q <> p -> logger_of s' q = logger_of s q /\ dget (c_players (cx s')) q = dget (c_players (cx s)) q) /\
  ((exists m, active s p /\ model_of s p = Some m /\ goal_done W g (get_state W m) (time s) = Ok true /\
      akeys (c_players (cx s')) = filter (fun x => negb (Nat.eqb x p)) (akeys (c_players (cx s))) /\
      leaves_of (ev s') = leaves_of (ev s) ++ [(p, time s)] /\
      exists l, logger_of s p = Some l /\
        logger_of s' p = Some (mkLogger (snoc (lg_states l) (time s) (get_state W m)) (lg_commands l) (lg_extra l) (lg_info l)))
   \/ (s' = s /\ (active s p -> exists m, model_of s p = Some m /\ goal_done W g (get_state W m) (time s) = Ok false))).
Proof.
  intros N H. unfold remove_finished1 in H. destruct (dmem (c_players (cx s)) p) eqn:Ea.
  - apply dmem_spec in Ea.
    destruct (dgetE (c_models (cx s)) p) as [m|] eqn:Em; [|discriminate]. apply agetE_Ok in Em. cbv zeta in H.
    destruct (goal_done W g (get_state W m) (time s)) as [[]|] eqn:Eg; [| |discriminate].
    + destruct (with_logger s p _) as [s1|] eqn:El; [|discriminate]. injection H as <-.
      apply with_logger_ok in El as (l & l' & L1 & L2 & ->). apply log_state_ok in L2. subst l'.
      split; [|split; [|split]].
      * constructor; cbn; auto.
        -- intros q Hq. apply In_keys_dset; auto.
        -- intro q. rewrite asks_of_cons. unfold asks_of at 2; cbn. apply app_nil_r.
        -- intro q. rewrite moves_of_cons. unfold moves_of at 2; cbn. apply app_nil_r.
        -- unfold no_coll_events; cbn. rewrite pairs_of_cons, envs_of_cons, expected_reports_cons.
           repeat split; apply app_nil_r.
      * cbn. apply NoDup_ddel; exact N.
      * intros q Nq. unfold logger_of; cbn. rewrite dget_dset_other, dget_ddel_other by congruence. auto.
      * left. exists m. split; [exact Ea|]. split; [exact Em|]. split; [exact Eg|].
        split; [cbn; apply keys_ddel; exact N|]. split; [cbn; apply leaves_of_cons|].
        exists l. split; [exact L1|]. unfold logger_of; cbn. apply dget_dset_same.
    + injection H as <-. split; [apply rframe_refl|]. split; [exact N|]. split; [auto|].
      right. split; [reflexivity|]. intros _. exists m. auto.
  - injection H as <-. apply dmem_false in Ea. split; [apply rframe_refl|]. split; [exact N|]. split; [auto|].
    right. split; [reflexivity|]. intro C; contradiction.
Qed.

Lemma remove_finished_ok s s' : NoDup (akeys (c_players (cx s))) -> NoDup (akeys (g_missions (c_cfg (cx s)))) ->
  remove_finished s = Ok s' ->
  rframe s s' /\ NoDup (akeys (c_players (cx s'))) /\
  (forall p, active s' p <-> active s p /\ ~ finished s p) /\
  (forall p, active s' p -> dget (c_players (cx s')) p = dget (c_players (cx s)) p) /\
  (exists f, akeys (c_players (cx s')) = filter f (akeys (c_players (cx s)))) /\
  (forall p, active s p -> finished s p -> exists l m, logger_of s p = Some l /\ model_of s p = Some m /\
     logger_of s' p = Some (mkLogger (snoc (lg_states l) (time s) (get_state W m)) (lg_commands l) (lg_extra l) (lg_info l))) /\
  (forall p, ~ (active s p /\ finished s p) -> logger_of s' p = logger_of s p) /\
  (forall p, In (p, time s) (leaves_of (ev s')) <-> In (p, time s) (leaves_of (ev s)) \/ (active s p /\ finished s p)) /\
  (forall p t, t <> time s -> In (p, t) (leaves_of (ev s')) <-> In (p, t) (leaves_of (ev s))).
Proof.
  intros N NM H. unfold remove_finished in H.
  set (ms := g_missions (c_cfg (cx s))) in *.
  pose (Q := fun (pre : list (nat * w_G W)) (x : st W) =>
    rframe s x /\ NoDup (akeys (c_players (cx x))) /\
    (forall p, active x p <-> active s p /\ ~ (In p (map fst pre) /\ finished s p)) /\
    (forall p, active x p -> dget (c_players (cx x)) p = dget (c_players (cx s)) p) /\
    (exists f, akeys (c_players (cx x)) = filter f (akeys (c_players (cx s)))) /\
    (forall p, In p (map fst pre) -> active s p -> finished s p -> exists l m, logger_of s p = Some l /\ model_of s p = Some m /\
      logger_of x p = Some (mkLogger (snoc (lg_states l) (time s) (get_state W m)) (lg_commands l) (lg_extra l) (lg_info l))) /\
    (forall p, ~ (In p (map fst pre) /\ active s p /\ finished s p) -> logger_of x p = logger_of s p) /\
    (forall p, In (p, time s) (leaves_of (ev x)) <-> In (p, time s) (leaves_of (ev s)) \/ (In p (map fst pre) /\ active s p /\ finished s p)) /\
    (forall p t, t <> time s -> In (p, t) (leaves_of (ev x)) <-> In (p, t) (leaves_of (ev s)))).
  assert (NDm : NoDup ms) by (apply NoDup_map_inv with (f := fst); exact NM).
  assert (HQ : Q ms s').
  { change (Q ([] ++ ms) s').
    assert (St : forall l pre s1 s2, pre ++ l = ms -> Q pre s1 -> rfold remove_finished1 s1 l = Ok s2 -> Q (pre ++ l) s2).
    { induction l as [|[p g] r IH]; intros pre s1 s2 Epre HQ Hf.
      - injection Hf as <-. rewrite app_nil_r. exact HQ.
      - cbn [rfold] in Hf. destruct (remove_finished1 s1 (p, g)) as [s1'|] eqn:E; [|discriminate].
        replace (pre ++ (p, g) :: r) with ((pre ++ [(p, g)]) ++ r) in * by (rewrite <- app_assoc; reflexivity).
        eapply IH; [exact Epre| |exact Hf].
        destruct HQ as (F & Nx & Ac & Ag & (flt & Fl) & Lf & Lu & Lv & Lv').
        apply remove1_ok in E as (F' & Nx' & O & C); [|exact Nx].
        assert (Np : ~ In p (map fst pre)).
        { unfold akeys in NM. rewrite <- Epre, !map_app in NM. cbn in NM. rewrite <- app_assoc in NM. cbn in NM.
          apply NoDup_remove_2 in NM. intro C'; apply NM. apply in_or_app; left; exact C'. }
        assert (Hg : dget ms p = Some g).
        { rewrite <- Epre, <- app_assoc. cbn [app]. clear - Np. induction pre as [|[k v] r' IH]; cbn [app]; rewrite dget_cons.
          - rewrite Nat.eqb_refl. reflexivity.
          - cbn in Np. destruct (Nat.eqb_spec k p); [exfalso; tauto|]. apply IH. tauto. }
        assert (Mo : forall q, model_of s1 q = model_of s q).
        { intro q. unfold model_of. rewrite (r_models _ _ F). reflexivity. }
        assert (Tm : time s1 = time s) by (apply (r_tm _ _ F)).
        assert (Acp : active s1 p <-> active s p) by (rewrite Ac; tauto).
        split; [eapply rframe_trans; eassumption|]. split; [exact Nx'|].
        assert (Mem : forall q, In q (map fst (pre ++ [(p, g)])) <-> In q (map fst pre) \/ q = p).
        { intro q. rewrite map_app, in_app_iff. cbn. intuition. }
        destruct C as [(m & C1 & C2 & C3 & C4 & C5 & l & C6 & C7)|[-> C]].
        + assert (Fp : finished s p).
          { exists g, m. rewrite <- Mo, <- Tm. auto. }
          assert (Lp : logger_of s1 p = logger_of s p) by (apply Lu; tauto).
          split; [|split; [|split; [|split; [|split; [|split]]]]].
          * intro q. unfold active. rewrite C4, filter_In. fold (active s1 q). rewrite Ac, Mem.
            destruct (Nat.eqb_spec q p) as [->|Nq]; cbn; [|intuition congruence].
            split; [intros [_ ?]; discriminate|]. intros [_ Hn]. exfalso. apply Hn. auto.
          * intros q Hq. destruct (Nat.eq_dec q p) as [->|Nq].
            -- exfalso. unfold active in Hq. rewrite C4, filter_In, Nat.eqb_refl in Hq. destruct Hq; discriminate.
            -- rewrite (proj2 (O q Nq)). apply Ag. unfold active in Hq. rewrite C4, filter_In in Hq. apply Hq.
          * exists (fun x => flt x && negb (Nat.eqb x p)). rewrite C4, Fl.
            clear. induction (akeys (c_players (cx s))) as [|x l IH]; cbn; [reflexivity|].
            destruct (flt x); cbn; rewrite IH; reflexivity.
          * intros q Hq Hac Hfin. apply Mem in Hq as [Hq| ->].
            -- assert (q <> p) by (intros ->; contradiction). rewrite (proj1 (O q H0)). apply Lf; assumption.
            -- exists l, m. rewrite <- Lp, <- Mo, <- Tm. auto.
          * intros q Hq. rewrite Mem in Hq. assert (q <> p). { intros ->. apply Hq. split; [right; reflexivity|]. split; [apply Acp; exact C1|exact Fp]. }
            rewrite (proj1 (O q H0)). apply Lu. tauto.
          * intro q. rewrite C5, in_app_iff, Lv, Mem, Tm. cbn. split.
            -- intros [[?|?]|[[= <-]|[]]]; [tauto|tauto|]. right. split; [right; reflexivity|]. split; [apply Acp; exact C1|exact Fp].
            -- intros [?|([?| ->]&?&?)]; [tauto|tauto|tauto].
          * intros q t Nt. rewrite C5, in_app_iff, Lv' by exact Nt. rewrite Tm. cbn. split; [|tauto].
            intros [?|[[= _ ?]|[]]]; [assumption|congruence].
        + assert (NF : active s p -> ~ finished s p).
          { intros Ha (g' & m' & G1 & G2 & G3). apply Acp in Ha. destruct (C Ha) as (m & M1 & M2).
            fold ms in G1. rewrite Mo in M1. rewrite Tm in M2. congruence. }
          split; [|split; [|split; [|split; [|split; [|split]]]]].
          * intro q. rewrite Ac, Mem. split.
            -- intros [H1 H2]. split; [exact H1|]. intros [[?| ->] H3]; [tauto|]. exact (NF H1 H3).
            -- tauto.
          * exact Ag.
          * exists flt; exact Fl.
          * intros q Hq Hac Hfin. apply Mem in Hq as [Hq| ->]; [apply Lf; assumption|]. exfalso; exact (NF Hac Hfin).
          * intros q Hq. apply Lu. rewrite Mem in Hq. tauto.
          * intro q. rewrite Lv, Mem. split; [tauto|]. intros [?|([?| ->]&H1&H2)]; [tauto|tauto|]. exfalso; exact (NF H1 H2).
          * exact Lv'. }
    eapply St; [reflexivity| |exact H].
    split; [apply rframe_refl|]. split; [exact N|]. split; [intro p; cbn; tauto|]. split; [auto|].
    split. { exists (fun _ => true). clear. induction (akeys (c_players (cx s))) as [|x l IH]; cbn; [reflexivity|f_equal; exact IH]. }
    split; [intros p []|]. split; [reflexivity|]. split; [intro p; cbn; tauto|]. reflexivity. }
  destruct HQ as (F & Nx & Ac & Ag & Fl & Lf & Lu & Lv & Lv').
  assert (Fm : forall p, finished s p -> In p (map fst ms)).
  { intros p (g & m & G1 & _). eapply dget_Some_In; exact G1. }
  split; [exact F|]. split; [exact Nx|]. split.
  { intro p. rewrite Ac. split; [intros [H1 H2]; split; [exact H1|intro C; apply H2; auto]|tauto]. }
  split; [exact Ag|]. split; [exact Fl|]. split; [intros p H1 H2; apply Lf; auto|].
  split; [intros p H1; apply Lu; tauto|]. split; [|exact Lv'].
  intro p. rewrite Lv. split; [tauto|]. intros [?|[? ?]]; auto.
Qed.
End Phases.
