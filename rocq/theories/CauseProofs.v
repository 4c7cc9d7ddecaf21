(** What drives the agents and the sensors of a simulation. *)
From Coq Require Import QArith Qcanon ZArith List Bool Arith Lia.
From Verif Require Import Base Num SeqModel SimulatorModel SimulatorSpec DictLemmas SimulatorProofs SimulatorProofs2 SimulatorProofs3 SimulatorProofs4 SimulatorProofs5 SimulatorProofs7 CauseSpec.
Import ListNotations.
Open Scope Qc_scope.

Section P.
Context {W : world} (c : ctx W) (p : player) (a1 : w_A W).
Implicit Types s : st W.

Lemma talks_len (a0 : w_A W) os a us : talks a0 os a us -> length us = length os.
Proof. induction 1; [reflexivity|]. rewrite !app_length. cbn. lia. Qed.

Lemma combine_snoc {A B} (l : list A) (r : list B) x y : length l = length r -> combine (l ++ [x]) (r ++ [y]) = combine l r ++ [(x, y)].
Proof. revert r. induction l as [|a l IH]; intros [|b r] H; try discriminate; [reflexivity|]. cbn in *. rewrite IH by lia. reflexivity. Qed.

Lemma extras_app (l r : list (Qc * (w_U W * option (w_E W)))) : extras (l ++ r) = extras l ++ extras r.
Proof. apply flat_map_app. Qed.

Record J s : Prop := mkJ {
  j_cfg : c_cfg (cx s) = c_cfg c;
  j_talk : exists a us l, talks a1 (map ask_given (asks s p)) a us /\
     map ask_cmd (asks s p) = map fst us /\
     (forall a', dget (c_players (cx s)) p = Some a' -> a' = a) /\
     logger_of s p = Some l /\ length (b_ts (lg_extra l)) = length (b_vs (lg_extra l)) /\
     samples (lg_extra l) = extras (combine (map ask_t (asks s p)) us);
  j_watch : forall f0, get_sensor c p = Ok f0 -> exists f, get_sensor (cx s) p = Ok f /\
     watches (g_scen (c_cfg c)) p f0 (map ask_seen (asks s p)) f (map ask_given (asks s p));
  j_none : forall e, get_sensor c p = Err e -> get_sensor (cx s) p = Err e /\ asks s p = []
}.

(** What [J] depends on. *)
Lemma J_same s s' : c_cfg (cx s') = c_cfg (cx s) -> (forall a, dget (c_players (cx s')) p = Some a -> dget (c_players (cx s)) p = Some a) ->
  dget (c_sensors (cx s')) p = dget (c_sensors (cx s)) p -> asks s' p = asks s p ->
  (forall l, logger_of s p = Some l -> exists l', logger_of s' p = Some l' /\ lg_extra l' = lg_extra l) -> J s -> J s'.
Proof.
  intros E1 E2 E3 E4 E5 [J1 J2 J3 J4]. assert (G : get_sensor (cx s') p = get_sensor (cx s) p) by (unfold get_sensor; rewrite E1, E3; reflexivity).
  constructor; rewrite ?E4, ?G; auto.
  - congruence.
  - destruct J2 as (a & us & l & T & T2 & Ha & L & Le & Ls). destruct (E5 l L) as (l' & L' & X). exists a, us, l'.
    rewrite X. repeat (split; [auto|]). exact Ls.
Qed.

Lemma J_view s s' : c_cfg (cx s') = c_cfg (cx s) -> view s' p = view s p -> J s -> J s'.
Proof.
  intros E V. unfold view in V. assert (V1 : logger_of s' p = logger_of s p) by congruence.
  apply J_same; [exact E|..]. - intros a; assert (dget (c_players (cx s')) p = dget (c_players (cx s)) p) as -> by congruence; auto. - congruence. - unfold asks; congruence.
  - intros l H. exists l. rewrite V1. auto.
Qed.

Lemma J_log_state s q t x s' : with_logger s q (log_state t x) = Ok s' -> J s -> J s'.
Proof.
  intros H. apply with_logger_ok in H as (l & l' & L & F & ->). apply log_state_ok in F. subst l'. apply J_same; try reflexivity.
  - auto.
  - intros k Hk. unfold logger_of in *. cbn. rewrite dget_dset. destruct (Nat.eqb_spec q p) as [->|N]; [|eauto]. rewrite Hk in L. injection L as ->. eexists. split; reflexivity.
Qed.

Lemma ask_sensor s q t s' f f' o : get_sensor (cx s) q = Ok f -> sense W f (g_scen (c_cfg (cx s))) (s_obs (sm s)) q = Ok (f', o) ->
  ask s q t = Ok s' -> dget (c_sensors (cx s')) q = Some f'.
Proof.
  intros E1 E2 H. unfold ask in H. rewrite E1, E2 in H.
  destruct (dgetE (c_players (cx s)) q) as [a|]; [|discriminate]. destruct (agent_cmds W a o) as [[a' u]|]; [|discriminate]. cbv zeta in H.
  destruct (with_logger _ q (log_command t u)) as [s2|] eqn:H1; [|discriminate]. apply with_logger_ev in H1 as [_ H1].
  destruct (with_logger s2 q _) as [s3|] eqn:H2; [|discriminate]. apply with_logger_ev in H2 as [_ H2].
  destruct (agent_extra W a') as [[a'' x]|]; [|discriminate].
  assert (Q : dget (c_sensors (cx s3)) q = Some f') by (rewrite H2, H1; cbn; apply dget_dset_same).
  destruct x as [v|]; [apply with_logger_ev in H as [_ ->]; exact Q|]. injection H as <-. exact Q.
Qed.

Lemma J_ask s q t s' : ask s q t = Ok s' -> J s -> J s'.
Proof.
  intros H Hj. destruct (ask_ok _ _ _ _ H) as (f & f' & o & a & a' & a'' & u & x & l & S1 & S2 & A1 & A2 & A3 & L & Fr & _ & _ & P' & L' & E' & O).
  destruct (Nat.eq_dec q p) as [->|N]; [|apply (J_view s s'); [apply (f_cfg _ _ Fr)|apply O; congruence|exact Hj]].
  pose proof (ask_sensor _ _ _ _ _ _ _ S1 S2 H) as Sn.
  assert (Ea : asks s' p = asks s p ++ [(t, s_obs (sm s), o, u)]).
  { unfold asks. rewrite E', asks_of_cons. unfold asks_of at 2. cbn. rewrite Nat.eqb_refl. reflexivity. }
  destruct Hj as [J1 J2 J3 J4]. constructor; rewrite ?Ea.
  - rewrite (f_cfg _ _ Fr). exact J1.
  - destruct J2 as (b & us & k & T & T2 & Hb & Lk & Le & Ls). rewrite L in Lk. injection Lk as <-. rewrite (Hb _ A1) in A2.
    exists a'', (us ++ [(u, x)]), (mkLogger (lg_states l) (snoc (lg_commands l) t u) (opt_snoc (lg_extra l) t x) (snoc (lg_info l) t (cpu_time W p t))).
    rewrite !map_app. cbn [map]. split; [econstructor; eassumption|]. split; [rewrite T2; reflexivity|]. split; [congruence|]. split; [exact L'|]. cbn [lg_extra].
    assert (Ln : length (map ask_t (asks s p)) = length us) by (rewrite (talks_len _ _ _ _ T), !map_length; reflexivity).
    rewrite combine_snoc, extras_app, <- Ls by exact Ln.
    destruct x as [v|]; cbn [opt_snoc].
    + split; [cbn; rewrite !app_length; cbn; lia|]. apply samples_snoc. exact Le.
    + split; [exact Le|]. rewrite app_nil_r. reflexivity.
  - intros f0 H0. destruct (J3 f0 H0) as (g & G1 & G2). rewrite S1 in G1. injection G1 as <-. exists f'. split; [unfold get_sensor; rewrite Sn; reflexivity|].
    rewrite !map_app. cbn [map]. econstructor; [exact G2|]. rewrite <- J1. exact S2.
  - intros e H0. destruct (J4 e H0) as [G _]. congruence.
Qed.

Lemma J_player t s q s' : update_player t s q = Ok s' -> J s -> J s'.
Proof.
  unfold update_player. intros H Hj.
  destruct (dgetE (c_models (cx s)) q) as [m|]; [|discriminate].
  destruct (with_logger s q _) as [s1|] eqn:E2; [|discriminate]. apply J_log_state in E2; [|exact Hj].
  destruct (if need_commands s1 then ask s1 q t else Ok s1) as [s2|] eqn:E3; [|discriminate].
  assert (J s2). { destruct (need_commands s1); [eapply J_ask; eassumption|injection E3 as <-; exact E2]. }
  destruct (dgetE (s_cmds (sm s2)) q) as [u|]; [|discriminate]. destruct (dgetE (c_models (cx s2)) q) as [m'|]; [|discriminate].
  destruct (model_step W m' u _) as [m''|]; [|discriminate]. injection H as <-. revert H0. apply J_same; try reflexivity.
  - auto.
  - unfold asks. cbn [ev]. rewrite asks_of_cons. unfold asks_of at 2. cbn. apply app_nil_r.
  - eauto.
Qed.

Lemma J_update s s' : update s = Ok s' -> J s -> J s'.
Proof.
  unfold update. intros H Hj. destruct (rfold _ s _) as [s1|] eqn:E; [|discriminate].
  assert (J s1). { apply (rfold_inv' (update_player (time s)) J) in E; [exact E|exact Hj|]. intros. eapply J_player; eassumption. }
  destruct (need_commands s1); injection H as <-; [|assumption]. revert H0. apply J_same; try reflexivity; eauto.
Qed.

Lemma fin_dec s q : finished s q \/ ~ finished s q.
Proof.
  unfold finished. destruct (dget (g_missions (c_cfg (cx s))) q) as [g|] eqn:E1; [|right; intros (g & m & H & _); discriminate].
  destruct (model_of s q) as [m|] eqn:E2; [|right; intros (g' & m & _ & H & _); discriminate].
  destruct (goal_done W g (get_state W m) (time s)) as [[|]|e] eqn:E3; [left; eauto|right|right]; intros (g' & m' & H1 & H2 & H3); congruence.
Qed.

Lemma J_remove s s' : NoDup (akeys (c_players (cx s))) -> NoDup (akeys (g_missions (c_cfg (cx s)))) -> remove_finished s = Ok s' -> J s -> J s'.
Proof.
  intros N Nm H. destruct (remove_finished_ok _ _ N Nm H) as (R & _ & Act & Pl & _ & Fin & Lg & _). apply J_same.
  - apply R.
  - intros a Ha. rewrite <- (Pl p); [exact Ha|]. eapply dget_Some_In; exact Ha.
  - rewrite (r_sensors _ _ R). reflexivity.
  - apply (r_asks _ _ R).
  - intros l Hl. destruct (activeb s p) eqn:Ea; [|exists l; rewrite Lg; [auto|]; intros [Hp _]; apply dmem_spec in Hp; unfold activeb in Ea; congruence].
    apply dmem_spec in Ea. destruct (activeb s' p) eqn:Ea'.
    + apply dmem_spec in Ea'. apply Act in Ea'. exists l. rewrite Lg; tauto.
    + destruct (fin_dec s p) as [F|F].
      * destruct (Fin p Ea F) as (l0 & m & L1 & _ & L3). rewrite Hl in L1. injection L1 as <-. eexists. split; [exact L3|reflexivity].
      * exists l. rewrite Lg; tauto.
Qed.

Lemma J_crel s s' np ne new : crel s s' np ne new -> J s -> J s'.
Proof.
  intros R. apply J_same.
  - apply R. - rewrite (cr_players _ _ _ _ _ R). auto. - rewrite (cr_sensors _ _ _ _ _ R). reflexivity. - apply R.
  - intros l H. exists l. unfold logger_of. rewrite (cr_sm _ _ _ _ _ R). auto.
Qed.

Lemma J_step s s' : NoDup (akeys (c_players (cx s))) -> NoDup (akeys (g_missions (c_cfg (cx s)))) -> step s = Ok s' -> J s -> J s'.
Proof.
  intros N Nm H Hj. unfold step in H. destruct (pre_update s) as [s1|] eqn:E1; [|discriminate].
  assert (J1 : J s1).
  { destruct (pre_update_ok _ _ E1) as (X1 & X2 & _ & _ & X5 & _). revert Hj. apply J_same; rewrite ?X1; auto. unfold asks; rewrite X2; reflexivity.
    intros l Hl. exists l. unfold logger_of. rewrite X5. auto. }
  assert (N1 : NoDup (akeys (c_players (cx s1))) /\ NoDup (akeys (g_missions (c_cfg (cx s1))))).
  { destruct (pre_update_ok _ _ E1) as (X1 & _). rewrite X1. auto. }
  destruct (update s1) as [s2|] eqn:E2; [|discriminate]. pose proof (J_update _ _ E2 J1) as J2.
  destruct (update_ok _ _ (proj1 N1) E2) as ((y & F & Cy & _) & _).
  assert (N2 : NoDup (akeys (c_players (cx s2))) /\ NoDup (akeys (g_missions (c_cfg (cx s2))))).
  { rewrite Cy, (f_players _ _ F), (f_cfg _ _ F). exact N1. }
  unfold post_update in H. set (s3 := upd_cx s2 _) in H.
  assert (J3 : J s3) by (revert J2; apply J_same; try reflexivity; eauto).
  destruct (remove_finished s3) as [s4|] eqn:E4; [|discriminate]. pose proof (J_remove s3 s4 (proj1 N2) (proj2 N2) E4 J3) as J4.
  assert (N4 : NoDup (akeys (c_players (cx s4)))) by (eapply remove_finished_ok; [| |exact E4]; apply N2).
  cbv zeta in H. set (s5 := maybe_terminate s4) in H.
  assert (J5 : J s5) by (revert J4; apply J_same; try reflexivity; eauto).
  destruct (c_term (cx s5)); [injection H as <-; exact J5|].
  destruct (check_env s5) as [s6|] eqn:E6; [|discriminate]. destruct (check_env_ok s5 s6 N4 E6) as (new & R). pose proof (J_crel _ _ _ _ _ R J5) as J6.
  assert (N6 : NoDup (akeys (c_players (cx s6)))) by (rewrite (cr_players _ _ _ _ _ R); exact N4).
  destruct (check_players_ok _ _ N6 H) as (np & new' & R' & _). exact (J_crel _ _ _ _ _ R' J6).
Qed.

Lemma J_start s0 : started c s0 -> initialised c p a1 -> dget (c_players (cx s0)) p = Some a1 -> J s0.
Proof.
  intros S (a0 & m0 & I1 & I2 & I3) P0. destruct S as (V & m & Um & H). destruct (valid_ctx_keys _ V) as [K1 _].
  apply init_run_ok in H as (Q1&Q2&Q3&Q4&Q5&Q6&Q7&Q8&Q9&Q10&Q11&Q12&Q13&Q14&Q15).
  assert (As : asks s0 p = []) by (unfold asks; rewrite Q10; reflexivity).
  assert (G : get_sensor (cx s0) p = get_sensor c p) by (unfold get_sensor; rewrite Q1, Q4; reflexivity).
  constructor; rewrite ?As.
  - exact Q1.
  - exists a1, [], new_logger. split; [constructor|]. split; [reflexivity|]. split; [congruence|].
    split; [apply Q14; eapply dget_Some_In; exact I1|]. split; reflexivity.
  - intros f0 H0. exists f0. rewrite G. split; [exact H0|constructor].
  - intros e H0. rewrite G. auto.
Qed.
End P.

Section Q.
Context {W : world}.

Lemma init_agents (c : ctx W) m s0 : NoDup (akeys (c_players c)) -> init_run c m = Ok s0 -> forall p, In p (akeys (c_players c)) ->
  exists a, initialised c p a /\ dget (c_players (cx s0)) p = Some a.
Proof.
  intros N H p Hp. unfold init_run in H.
  pose (Q := fun (pre : list nat) (x : st W) => c_cfg (cx x) = c_cfg c /\ c_models (cx x) = c_models c /\
    (forall q, In q pre -> exists a, initialised c q a /\ dget (c_players (cx x)) q = Some a) /\
    (forall q, ~ In q pre -> dget (c_players (cx x)) q = dget (c_players c) q)).
  assert (HQ : Q ([] ++ akeys (c_players c)) s0).
  { eapply rfold_inv_nd; [| |intros|exact H].
    - unfold Q. repeat split. intros q [].
    - exact N.
    - destruct H0 as (C1 & C2 & C3 & C4). apply init_player_ok in H3 as (a & a' & A1 & (m0 & A2 & A3) & ->). unfold Q; cbn.
      split; [exact C1|]. split; [exact C2|]. split.
      + intros q Hq. rewrite dget_dset. destruct (Nat.eqb_spec x q) as [<-|Nq].
        * exists a'. split; [|reflexivity]. exists a, m0. rewrite C1 in A3. unfold model_of in A2. rewrite C2 in A2. rewrite C4 in A1 by assumption. auto.
        * apply C3. apply in_app_iff in Hq as [Hq|[Hq|[]]]; [exact Hq|contradiction].
      + intros q Hq. rewrite in_app_iff in Hq. cbn in Hq. rewrite dget_dset_other by (intros ->; tauto). apply C4. tauto. }
  apply HQ. exact Hp.
Qed.

Lemma J_holds (c : ctx W) s0 k s p : started c s0 -> 0 < dt (g_param (c_cfg c)) -> after s0 k s -> In p (akeys (c_models c)) ->
  exists a1, initialised c p a1 /\ J c p a1 s.
Proof.
  intros S D A Hp. pose proof S as (V & m & Um & H). destruct (valid_ctx_keys _ V) as [K1 _].
  destruct (init_agents c m s0 (proj1 (proj2 (proj2 V))) H p (proj1 (K1 p) Hp)) as (a1 & I & P0). exists a1. split; [exact I|].
  induction A as [|k s s' A IH Ht Hs]; [apply J_start; assumption|].
  pose proof (started_facts _ _ _ _ S D A) as F. pose proof (fa_inv _ _ _ _ F) as In_.
  eapply J_step; [apply (i_nd _ In_)|apply (i_ndm _ In_)|exact Hs|exact IH].
Qed.

Lemma initialised_fun (c : ctx W) p a b : initialised c p a -> initialised c p b -> a = b.
Proof. intros (a0 & m & A1 & A2 & A3) (b0 & n & B1 & B2 & B3). congruence. Qed.

Lemma talks_inv (a0 : w_A W) os a us : talks a0 os a us -> (os = [] /\ a = a0 /\ us = []) \/
  exists os' a' us' o a1 u x, os = os' ++ [o] /\ us = us' ++ [(u, x)] /\ talks a0 os' a' us' /\ agent_cmds W a' o = Ok (a1, u) /\ agent_extra W a1 = Ok (a, x).
Proof. destruct 1; [left; auto|right]. do 7 eexists. eauto. Qed.

Lemma talks_fun (a0 : w_A W) os a us : talks a0 os a us -> forall b ws, talks a0 os b ws -> a = b /\ us = ws.
Proof.
  induction 1 as [|os a us o a1 u a2 x T IH C E]; intros b ws H.
  - destruct (talks_inv _ _ _ _ H) as [(_ & -> & ->)|(os' & a' & us' & o & x1 & u & x & E & _)]; [auto|destruct os'; discriminate].
  - destruct (talks_inv _ _ _ _ H) as [(E0 & _)|(os' & a' & us' & o' & x1 & u' & x' & E1 & -> & T' & C' & E')]; [destruct os; discriminate|].
    apply app_inj_tail in E1 as [<- <-]. destruct (IH _ _ T') as [<- <-]. rewrite C in C'. injection C' as <- <-. rewrite E in E'. injection E' as <- <-. auto.
Qed.

(** The first answers are those to the first observations. *)
Lemma talks_prefix (a0 : w_A W) os a us : talks a0 os a us -> forall n, (n <= length os)%nat -> exists b, talks a0 (firstn n os) b (firstn n us).
Proof.
  induction 1 as [|os a us o a1 u a2 x T IH C E]; intros n Hn.
  - exists a0. destruct n; [constructor|]. cbn in Hn. lia.
  - rewrite app_length in Hn. cbn in Hn. destruct (Nat.eq_dec n (length os + 1)) as [->|Nn].
    + exists a2. rewrite !firstn_all2 by (rewrite app_length; cbn; rewrite ?(talks_len _ _ _ _ T); lia). econstructor; eassumption.
    + destruct (IH n ltac:(lia)) as (b & Tb). exists b. rewrite !firstn_app. pose proof (talks_len _ _ _ _ T) as L.
      replace (n - length os)%nat with O by lia. replace (n - length us)%nat with O by lia. cbn. rewrite !app_nil_r. exact Tb.
Qed.

Lemma watches_len sc p (f0 : w_S W) fs f os : watches sc p f0 fs f os -> length os = length fs.
Proof. induction 1; [reflexivity|]. rewrite !app_length. cbn. lia. Qed.

Lemma watches_fun sc p (f0 : w_S W) fs f os : watches sc p f0 fs f os -> forall g ws, watches sc p f0 fs g ws -> f = g /\ os = ws.
Proof.
  induction 1 as [|fs f os full f' o T IH C]; intros g ws H.
  - inversion H as [|fs1 f1 os1 full1 f1' o1 H1 H2 E1 E2 E3]; [auto|]. destruct fs1; discriminate.
  - inversion H as [E1|fs1 f1 os1 full1 f1' o1 H1 H2 E1 E2 E3]; [destruct fs; discriminate|].
    apply app_inj_tail in E1 as [-> ->]. destruct (IH _ _ H1) as [<- <-]. rewrite C in H2. injection H2 as <- <-. auto.
Qed.

Lemma watches_prefix sc p (f0 : w_S W) fs f os : watches sc p f0 fs f os -> forall n, (n <= length fs)%nat -> exists g, watches sc p f0 (firstn n fs) g (firstn n os).
Proof.
  induction 1 as [|fs f os full f' o T IH C]; intros n Hn.
  - exists f0. destruct n; [constructor|]. cbn in Hn. lia.
  - rewrite app_length in Hn. cbn in Hn. destruct (Nat.eq_dec n (length fs + 1)) as [->|Nn].
    + exists f'. rewrite !firstn_all2 by (rewrite app_length; cbn; rewrite ?(watches_len _ _ _ _ _ _ T); lia). econstructor; eassumption.
    + destruct (IH n ltac:(lia)) as (b & Tb). exists b. rewrite !firstn_app. pose proof (watches_len _ _ _ _ _ _ T) as L.
      replace (n - length fs)%nat with O by lia. replace (n - length os)%nat with O by lia. cbn. rewrite !app_nil_r. exact Tb.
Qed.
End Q.
