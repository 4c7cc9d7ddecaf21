(** A run raises only what external code raises, and ends with all logs. *)
From Coq Require Import QArith Qcanon ZArith List Bool Arith Lia Sorted.
From Verif Require Import Base Num SeqModel SeqSpec SeqProofs SeqProofs2 DictLemmas SimulatorModel SimulatorSpec
  SimulatorProofs SimulatorProofs2 SimulatorProofs3 SimulatorProofs4 SimulatorProofs5.
Import ListNotations.
Open Scope Qc_scope.

Section Err.
Context {W : world}.
Implicit Types (s : st W) (p q : player) (c : ctx W).

Definition sens_avail s p : Prop := g_sensors_default (c_cfg (cx s)) = true \/ In p (akeys (c_sensors (cx s))).

Lemma get_sensor_avail s p : sens_avail s p -> exists f, get_sensor (cx s) p = Ok f.
Proof.
  intros [H|H]; unfold get_sensor.
  - rewrite H. destruct (dget _ p); eauto.
  - apply In_keys_dget in H as [f Hf]. rewrite Hf. eauto.
Qed.

Lemma with_logger_err s p f l e : logger_of s p = Some l -> with_logger s p f = Err e -> f l = Err e.
Proof.
  unfold logger_of, with_logger, agetE. intros -> H. destruct (f l); congruence.
Qed.
Lemma log_state_fits t x (l : plogger W) : below (lg_states l) t -> exists l', log_state t x l = Ok l'.
Proof. intro H. unfold log_state. rewrite b_add_fits by exact H. eauto. Qed.
Lemma log_command_fits t x (l : plogger W) : below (lg_commands l) t -> exists l', log_command t x l = Ok l'.
Proof. intro H. unfold log_command. rewrite b_add_fits by exact H. eauto. Qed.
Lemma log_extra_fits t x (l : plogger W) : below (lg_extra l) t -> exists l', log_extra t x l = Ok l'.
Proof. intro H. unfold log_extra. rewrite b_add_fits by exact H. eauto. Qed.
Lemma log_info_fits t x (l : plogger W) : below (lg_info l) t -> exists l', log_info t x l = Ok l'.
Proof. intro H. unfold log_info. rewrite b_add_fits by exact H. eauto. Qed.

Lemma ask_err s p t l e : sens_avail s p -> active s p -> logger_of s p = Some l ->
  below (lg_commands l) t -> below (lg_extra l) t -> below (lg_info l) t ->
  ask s p t = Err e -> user_raises W e.
Proof.
  intros S A L B1 B2 B3 H. unfold ask in H.
  destruct (get_sensor_avail _ _ S) as [f Hf]. rewrite Hf in H.
  destruct (sense W f _ _ p) as [[f' o]|e'] eqn:E2; [|injection H as <-; eapply ur_sense; exact E2].
  apply In_keys_dget in A as [a Ha]. unfold agetE in H. rewrite Ha in H.
  destruct (agent_cmds W a o) as [[a' u]|e'] eqn:E4; [|injection H as <-; eapply ur_cmds; exact E4]. cbv zeta in H.
  match type of H with context [with_logger ?x p (log_command t u)] => set (s1 := x) in H end.
  assert (L1 : logger_of s1 p = Some l) by exact L.
  destruct (with_logger s1 p (log_command t u)) as [s2|e'] eqn:E5.
  2:{ apply (with_logger_err _ _ _ _ _ L1) in E5. destruct (log_command_fits t u l B1) as [? ?]; congruence. }
  apply with_logger_ok in E5 as (l0 & l1 & L1' & L2 & ->). assert (l0 = l) by congruence. subst l0. apply log_command_ok in L2. subst l1.
  match type of H with context [with_logger ?x p (log_info t ?y)] => set (s2 := x) in H end.
  assert (L3 : logger_of s2 p = Some (mkLogger (lg_states l) (snoc (lg_commands l) t u) (lg_extra l) (lg_info l))).
  { unfold logger_of, s2; cbn. apply dget_dset_same. }
  destruct (with_logger s2 p (log_info t (cpu_time W p t))) as [s3|e'] eqn:E6.
  2:{ apply (with_logger_err _ _ _ _ _ L3) in E6. destruct (log_info_fits t (cpu_time W p t) _ (B3 : below (lg_info (mkLogger (lg_states l) (snoc (lg_commands l) t u) (lg_extra l) (lg_info l))) t)) as [? ?]; congruence. }
  apply with_logger_ok in E6 as (l2 & l3 & L4 & L5 & ->). rewrite L3 in L4. injection L4 as <-. apply log_info_ok in L5. subst l3.
  destruct (agent_extra W a') as [[a'' x]|e'] eqn:E7; [|injection H as <-; eapply ur_extra; exact E7].
  destruct x as [v|]; [|discriminate].
  eapply with_logger_err in H; [|unfold logger_of; cbn; apply dget_dset_same].
  cbn in H. edestruct (log_extra_fits t v) as [? Hx]; [|erewrite Hx in H; discriminate]. exact B2.
Qed.

Lemma update_player_err t s p m l e : model_of s p = Some m -> logger_of s p = Some l -> lg_below l t ->
  active s p -> sens_avail s p -> (need_commands s = false -> exists u, dget (s_cmds (sm s)) p = Some u) ->
  update_player t s p = Err e -> user_raises W e.
Proof.
  intros M L (B1 & B2 & B3 & B4) A S C H. unfold update_player, agetE in H. unfold model_of in M. rewrite M in H.
  destruct (with_logger s p _) as [s1|e'] eqn:E2.
  2:{ apply (with_logger_err _ _ _ _ _ L) in E2. destruct (log_state_fits t (get_state W m) l B1) as [? ?]; congruence. }
  apply with_logger_ok in E2 as (l0 & l1 & L1 & L2 & ->). assert (l0 = l) by congruence. subst l0. apply log_state_ok in L2. subst l1.
  match type of H with context [need_commands ?x] => set (s1 := x) in H end.
  change (need_commands s1) with (need_commands s) in H.
  assert (L3 : logger_of s1 p = Some (mkLogger (snoc (lg_states l) t (get_state W m)) (lg_commands l) (lg_extra l) (lg_info l))).
  { unfold logger_of, s1; cbn. apply dget_dset_same. }
  destruct (if need_commands s then ask s1 p t else Ok s1) as [s2|e'] eqn:E3.
  2:{ destruct (need_commands s); [|discriminate]. injection H as <-. eapply ask_err with (s := s1); [exact S|exact A|exact L3|exact B2|exact B3|exact B4|exact E3]. }
  assert (G : (exists u, dget (s_cmds (sm s2)) p = Some u) /\ c_models (cx s2) = c_models (cx s)).
  { destruct (need_commands s).
    - apply ask_ok in E3 as (f&f'&o&a&a'&a''&u'&x&l2&A1&A2&A3&A4&A5&A6&A7&A8&A9&A10&A11&A12&A13). eauto.
    - injection E3 as <-. split; [apply C; reflexivity|reflexivity]. }
  destruct G as ((u & Hu) & Hm). rewrite Hu, Hm, M in H.
  destruct (model_step W m u (dt (param s2))) eqn:E6; [discriminate|]. injection H as <-. eapply ur_step; exact E6.
Qed.

Lemma step_err s e : Inv s -> 0 < dt (param s) -> (forall p, active s p -> sens_avail s p) ->
  query_ok (W := W) (g_scen (c_cfg (cx s))) -> step s = Err e -> user_raises W e.
Proof.
  intros I D S Q H. unfold step in H.
  destruct (pre_update s) as [s1|e'] eqn:E1.
  2:{ exfalso. unfold pre_update in E1. destruct (need_commands s); [|discriminate].
      destruct (rmapM _ _) as [|e2] eqn:E; [discriminate|]. apply rmapM_err in E as (p & Hp & Ho).
      apply (i_am _ I) in Hp. apply In_keys_dget in Hp as [m Hm]. unfold observe, agetE in Ho. rewrite Hm in Ho. discriminate. }
  apply pre_update_ok in E1 as (P1 & P2 & P3 & P4 & P5 & _).
  assert (T1 : time s1 = time s) by (unfold time; rewrite P1; reflexivity).
  assert (Pm1 : param s1 = param s) by (unfold param; rewrite P1; reflexivity).
  assert (Nd1 : need_commands s1 = need_commands s) by (unfold need_commands; rewrite P3, T1, Pm1; reflexivity).
  assert (I1 : Inv s1).
  { destruct I as [H1 H2 H3 H4 H5 H6]. constructor; unfold active, logger_of, time in *; rewrite ?P1, ?P3, ?P4, ?P5; assumption. }
  destruct (update s1) as [s2|e'] eqn:E2.
  2:{ injection H as <-. unfold update in E2. cbv zeta in E2.
      destruct (rfold _ _ _) as [x|e2] eqn:E; [destruct (need_commands x); discriminate|]. injection E2 as <-.
      eapply rfold_err with (pre := []) (P := fun pre x => frame s1 x /\ (forall q, ~ In q pre -> view x q = view s1 q)) in E.
      - destruct E as (pre & x & s'' & (F & V) & Np & Hin & Hp).
        specialize (V _ Np). unfold view in V. injection V as V1 V2 V3 V4 V5 V6 V7.
        assert (Ap : active s1 x) by exact Hin.
        pose proof (i_am _ I1 _ Ap) as Hm. destruct (i_lg _ I1 _ Hm) as (l & L1 & L2). apply In_keys_dget in Hm as [m Hm].
        eapply update_player_err with (m := m) (l := l); [| | | | | |exact Hp].
        + rewrite V1. exact Hm.
        + congruence.
        + apply (i_below _ I1 x); assumption.
        + unfold active. rewrite (f_players _ _ F). exact Hin.
        + assert (Hs : sens_avail s x) by (apply S; unfold active; rewrite <- P1; exact Hin).
          destruct Hs as [Hs|Hs]; [left; rewrite (f_cfg _ _ F), P1; exact Hs|right; apply (f_sensors _ _ F); rewrite P1; exact Hs].
        + rewrite (need_frame _ _ F). intro Nn. rewrite V3. apply (i_cmds _ I1); [|exact Ap].
          intro C. unfold need_commands in Nn. rewrite C in Nn. discriminate.
      - split; [apply frame_refl|reflexivity].
      - exact (i_nd _ I1).
      - intros pre x y y' (F & V) Np Hin Hy. apply update_player_ok in Hy as (F' & _ & V').
        split; [eapply frame_trans; eassumption|]. intros q Hq. rewrite in_app_iff in Hq.
        rewrite V' by (intros ->; apply Hq; right; left; reflexivity). apply V. tauto. }
  pose proof E2 as E2'.
  apply update_ok in E2 as ((s1' & F & U1 & U2 & U3 & U4 & U5) & U6 & U7 & U8 & U9 & U10); [|exact (i_nd _ I1)].
  rewrite T1 in U9.
  assert (A1 : forall p, active s1 p <-> active s p) by (intro p; unfold active; rewrite P1; tauto).
  assert (K2 : akeys (c_players (cx s2)) = akeys (c_players (cx s))) by (rewrite U1, (f_players _ _ F), P1; reflexivity).
  assert (C2 : c_cfg (cx s2) = c_cfg (cx s)) by (rewrite U1, (f_cfg _ _ F), P1; reflexivity).
  assert (T2 : time s2 = time s) by (unfold time; rewrite U1, (f_time _ _ F), P1; reflexivity).
  assert (M2 : forall p, active s p -> exists m, model_of s2 p = Some m).
  { intros p Hp. apply A1 in Hp. destruct (U9 p Hp). eauto. }
  unfold post_update in H. cbv zeta in H.
  set (s2t := upd_cx s2 (set_time (cx s2) (time s2 + dt (param s2)))) in H.
  assert (Tt : time s2t = time s + dt (param s)).
  { unfold s2t, time at 1; cbn. rewrite T2. unfold param. rewrite C2. reflexivity. }
  assert (N2 : NoDup (akeys (c_players (cx s2t)))) by (cbn; rewrite K2; apply (i_nd _ I)).
  destruct (remove_finished s2t) as [s3|e'] eqn:E3.
  2:{ injection H as <-. unfold remove_finished in E3.
      assert (NMt : NoDup (akeys (g_missions (c_cfg (cx s2t))))) by (cbn; rewrite C2; apply (i_ndm _ I)).
      eapply rfold_err' with (P := fun x => rframe s2t x /\ NoDup (akeys (c_players (cx x))) /\
          (forall q, active x q -> active s2t q /\ logger_of x q = logger_of s2t q)) in E3.
      - destruct E3 as ([p g] & x & (R & Nx & Ax) & Hin & Hp).
        unfold remove_finished1 in Hp. destruct (dmem (c_players (cx x)) p) eqn:Ea; [|discriminate]. apply dmem_spec in Ea.
        destruct (Ax p Ea) as [Ap Lp]. unfold active in Ap; cbn in Ap; rewrite K2 in Ap.
        destruct (M2 p Ap) as [m Hm]. assert (Hm' : dget (c_models (cx x)) p = Some m) by (rewrite (r_models _ _ R); exact Hm).
        unfold agetE in Hp. rewrite Hm' in Hp. cbv zeta in Hp.
        destruct (goal_done W g (get_state W m) (time x)) as [[]|e2] eqn:Eg; [|discriminate|injection Hp as <-; eapply ur_goal; exact Eg].
        exfalso. destruct (with_logger x p _) as [s1x|e2] eqn:El; [discriminate|].
        destruct (U9 p (proj2 (A1 p) Ap)) as [m0 m1 u l l' H1 H2 H3 H4 H5 H6 H7 H8 H9].
        assert (Lx : logger_of x p = Some l') by (rewrite Lp; exact H5).
        apply (with_logger_err _ _ _ _ _ Lx) in El.
        destruct (log_state_fits (time x) (get_state W m) l') as [? Hx]; [|congruence].
        rewrite H6. apply snoc_below.
        + rewrite <- T1. apply (i_below _ I1 p l (proj2 (A1 p) Ap) H4).
        + replace (time x) with (time s2t) by (symmetry; apply (r_tm _ _ R)). rewrite Tt. qlra.
      - split; [apply rframe_refl|]. split; [exact N2|auto].
      - intros [p g] x x' (R & Nx & Ax) Hin Hx. apply remove1_ok in Hx as (R' & Nx' & O & Cs); [|exact Nx].
        split; [eapply rframe_trans; eassumption|]. split; [exact Nx'|].
        destruct Cs as [(m & C1 & C2' & C3 & C4 & C5 & _)|[-> _]]; [|exact Ax].
        intros q Hq. unfold active in Hq. rewrite C4, filter_In in Hq. destruct Hq as [Hq1 Hq2].
        destruct (Nat.eqb_spec q p) as [->|Nq]; [discriminate|]. destruct (Ax q Hq1) as [B1 B2]. split; [exact B1|].
        rewrite (proj1 (O q Nq)). exact B2. }
  apply remove_finished_ok in E3 as (R & N3 & Ac3 & _); [|exact N2|cbn; rewrite C2; apply (i_ndm _ I)].
  set (s4 := maybe_terminate s3) in H.
  destruct (c_term (cx s4)); [discriminate|].
  assert (C4 : c_cfg (cx s4) = c_cfg (cx s)) by (cbn; rewrite (r_cfg _ _ R); exact C2).
  assert (K4 : forall p, active s4 p -> In p (akeys (c_models (cx s4)))).
  { intros p Hp. cbn. rewrite (r_models _ _ R). cbn. apply Ac3 in Hp as [Hp _]. unfold active in Hp; cbn in Hp; rewrite K2 in Hp.
    destruct (M2 p Hp) as [m Hm]. eapply dget_Some_In; exact Hm. }
  (* collision phase *)
  assert (Env1 : forall p x i e0, c_cfg (cx x) = c_cfg (cx s) -> In p (akeys (c_models (cx x))) ->
     (i < length (obstacles W (g_scen (c_cfg (cx s)))))%nat -> check_env1 p x i = Err e0 -> user_raises W e0).
  { intros p x i e0 Cx Kx Li Hx. unfold check_env1, agetE in Hx. apply In_keys_dget in Kx as [m Hm]. rewrite Hm in Hx.
    unfold item in Hx. rewrite Cx in Hx. destruct (nth_error _ i) eqn:En; [|apply nth_error_None in En; lia].
    destruct (resolve_env W p w (time x) m) as [m' out] eqn:Er. cbv zeta in Hx.
    destruct out as [[r|]|e1].
    - destruct (is_dyn W m'); discriminate.
    - discriminate.
    - assert (Hr : e1 <> CollisionException -> user_raises W e1).
      { intro Ne. eapply ur_resolve_env; [|exact Ne]. rewrite Er. reflexivity. }
      destruct e1; try (injection Hx as <-; apply Hr; discriminate). destruct (is_dyn W m'); discriminate. }
  destruct (check_env s4) as [s5|e'] eqn:E5.
  2:{ injection H as <-. unfold check_env in E5.
      eapply rfold_err with (pre := []) (P := fun pre x => exists ne new, crel s4 x [] ne new) in E5.
      - destruct E5 as (pre & p & x & (ne & new & Cx) & Np & Hin & Hp). unfold check_env_player, agetE in Hp.
        assert (Kp : In p (akeys (c_models (cx x)))) by (rewrite (cr_models _ _ _ _ _ Cx); apply K4; exact Hin).
        apply In_keys_dget in Kp as Kp'. destruct Kp' as [m Hm]. rewrite Hm in Hp.
        apply rfold_err' with (P := fun y => exists ne' new', crel x y [] ne' new') in Hp.
        + destruct Hp as (i & y & (ne' & new' & Cy) & Hi & Hy).
          assert (Cc : c_cfg (cx x) = c_cfg (cx s)) by (rewrite (cr_cfg _ _ _ _ _ Cx); exact C4).
          apply (Env1 p y i); [| | |exact Hy].
          * rewrite (cr_cfg _ _ _ _ _ Cy); exact Cc.
          * rewrite (cr_models _ _ _ _ _ Cy); exact Kp.
          * apply (Q (footprint W m)). rewrite Cc in Hi. exact Hi.
        + exists [], []. apply crel_refl.
        + intros i y y' (ne' & new' & Cy) Hi Hy. apply check_env1_ok in Hy as [n2 Cy2].
          do 2 eexists. exact (crel_trans _ _ _ _ _ _ _ _ _ Cy Cy2).
      - exists [], []. apply crel_refl.
      - exact N3.
      - intros pre p x x' (ne & new & Cx) Np Hin Hx. unfold check_env_player in Hx.
        destruct (dgetE (c_models (cx x)) p) as [m|] eqn:Em; [|discriminate].
        apply check_env_loop_ok in Hx as [n2 C2x]. do 2 eexists. exact (crel_trans _ _ _ _ _ _ _ _ _ Cx C2x). }
  apply check_env_ok in E5 as [n1 Ce]; [|exact N3]. unfold check_players in H.
  assert (N5 : NoDup (akeys (c_players (cx s5)))) by (rewrite (cr_players _ _ _ _ _ Ce); exact N3).
  eapply rfold_err with (pre := []) (P := fun pre x => exists np new, crel s5 x np [] new) in H.
  - destruct H as (pre & [p q] & x & (np & new & Cx) & Np & Hin & Hp).
    assert (Kk : forall r, In r (akeys (c_players (cx s5))) -> In r (akeys (c_models (cx x)))).
    { intros r Hr. rewrite (cr_models _ _ _ _ _ Cx), (cr_models _ _ _ _ _ Ce). apply K4. unfold active.
      rewrite <- (cr_players _ _ _ _ _ Ce). exact Hr. }
    apply combinations2_In in Hin as (i & j & _ & Hi & Hj). apply nth_error_In in Hi. apply nth_error_In in Hj.
    apply Kk in Hi. apply Kk in Hj. apply In_keys_dget in Hi as [a Ha]. apply In_keys_dget in Hj as [b Hb].
    unfold check_pair, agetE in Hp. rewrite Ha, Hb in Hp.
    destruct (intersects _ _ _); [|discriminate].
    destruct (resolve W (g_scen (c_cfg (cx x))) p q (time x) a b) as [[a' b'] out] eqn:Er. cbv zeta in Hp.
    destruct out as [[r|]|e1]; [discriminate|discriminate|].
    assert (Hr : e1 <> CollisionException -> user_raises W e1).
    { intro Ne. eapply ur_resolve; [|exact Ne]. rewrite Er. reflexivity. }
    destruct e1; try (injection Hp as <-; apply Hr; discriminate). discriminate.
  - exists [], []. apply crel_refl.
  - cbn. apply combinations2_NoDup; exact N5.
  - intros pre [p q] x x' (np & new & Cx) Np Hin Hx.
    apply check_pair_ok in Hx as [n2 C2x]; [|apply (combinations2_neq _ N5); exact Hin].
    do 2 eexists. exact (crel_trans _ _ _ _ _ _ _ _ _ Cx C2x).
Qed.

(** ** The whole run *)
Lemma loop_after s0 : forall fuel k s r, after s0 k s -> loop fuel s = Some (Ok r) ->
  exists k', after s0 k' r /\ c_term (cx r) = true.
Proof.
  induction fuel as [|f IH]; intros k s r A H; cbn in H.
  - destruct (c_term (cx s)) eqn:E; [injection H as <-; eauto|discriminate].
  - destruct (c_term (cx s)) eqn:E; [injection H as <-; eauto|].
    destruct (step s) as [s'|] eqn:Es; [|discriminate]. eapply IH; [|exact H]. econstructor; eassumption.
Qed.
Lemma loop_after_err s0 : forall fuel k s e, after s0 k s -> loop fuel s = Some (Err e) ->
  exists k' s', after s0 k' s' /\ c_term (cx s') = false /\ step s' = Err e.
Proof.
  induction fuel as [|f IH]; intros k s r A H; cbn in H.
  - destruct (c_term (cx s)) eqn:E; discriminate.
  - destruct (c_term (cx s)) eqn:E; [discriminate|].
    destruct (step s) as [s'|] eqn:Es; [|injection H as <-; eauto 6]. eapply IH; [|exact H]. econstructor; eassumption.
Qed.
Lemma loop_none s0 : forall fuel k s, after s0 k s -> loop fuel s = None ->
  exists s', after s0 (k + fuel) s' /\ c_term (cx s') = false.
Proof.
  induction fuel as [|f IH]; intros k s A H; cbn in H.
  - destruct (c_term (cx s)) eqn:E; [discriminate|]. exists s. rewrite Nat.add_0_r. auto.
  - destruct (c_term (cx s)) eqn:E; [discriminate|].
    destruct (step s) as [s'|] eqn:Es; [|discriminate]. rewrite <- Nat.add_succ_comm. eapply IH; [|exact H]. econstructor; eassumption.
Qed.

Lemma after_fun s0 k s : after s0 k s -> forall s', after s0 k s' -> s' = s.
Proof.
  induction 1 as [|k s s1 A IH Ht Hs]; intros s' A'; inversion A'; subst; [reflexivity|].
  apply IH in H0. subst. congruence.
Qed.
Lemma after_prefix s0 k s : after s0 k s -> forall i, (i <= k)%nat -> exists si, after s0 i si.
Proof.
  induction 1 as [|k s s1 A IH Ht Hs]; intros i Hi.
  - assert (i = 0)%nat by lia. subst. exists s0. constructor.
  - destruct (Nat.eq_dec i (S k)) as [->|]; [exists s1; econstructor; eassumption|]. apply IH. lia.
Qed.
Lemma after_trans s0 k s : after s0 k s -> forall n s', after s n s' -> after s0 (n + k) s'.
Proof. intros A n s' B. induction B; [exact A|]. cbn. econstructor; eassumption. Qed.
Lemma after_split s0 n s' : after s0 n s' -> forall k s, (k <= n)%nat -> after s0 k s -> after s (n - k) s'.
Proof.
  induction 1 as [|n s1 s2 A IH Ht Hs]; intros k s Hk Ak.
  - assert (k = 0)%nat by lia. subst. inversion Ak; subst. constructor.
  - destruct (Nat.eq_dec k (S n)) as [->|].
    + assert (A2 : after s0 (S n) s2) by (econstructor; eassumption).
      rewrite (after_fun _ _ _ A2 _ Ak). rewrite Nat.sub_diag. constructor.
    + rewrite Nat.sub_succ_l by lia. econstructor; [apply IH; [lia|exact Ak]|exact Ht|exact Hs].
Qed.
Lemma after_live s0 n s' : after s0 n s' -> forall k s, (k < n)%nat -> after s0 k s -> c_term (cx s) = false.
Proof.
  induction 1 as [|n s1 s2 A IH Ht Hs]; intros k s Hk Ak; [lia|].
  destruct (Nat.eq_dec k n) as [->|]; [rewrite (after_fun _ _ _ A _ Ak); exact Ht|]. eapply IH; [|exact Ak]. lia.
Qed.

Lemma builder_as_sequence {X} (b : builder X) : bwf b -> as_sequence b = Ok (mkSeq (b_ts b) (b_vs b) true).
Proof. intros [H1 H2]. apply new_seq_ok; assumption. Qed.

Lemma logger_as_sequence_ok (l : plogger W) : lg_wf l ->
  logger_as_sequence l = Ok (mkLog (mkSeq (b_ts (lg_states l)) (b_vs (lg_states l)) true)
    (mkSeq (b_ts (lg_commands l)) (b_vs (lg_commands l)) true)
    (mkSeq (b_ts (lg_extra l)) (b_vs (lg_extra l)) true)
    (mkSeq (b_ts (lg_info l)) (b_vs (lg_info l)) true)).
Proof.
  intros (H1 & H2 & H3 & H4). unfold logger_as_sequence.
  rewrite !builder_as_sequence by assumption. reflexivity.
Qed.

Definition log_matches s p (pl : plog W) : Prop :=
  iter (pl_states pl) = states_log s p /\ iter (pl_commands pl) = commands_log s p /\
  iter (pl_extra pl) = extra_log s p /\ iter (pl_info pl) = info_log s p /\
  WF (pl_states pl) /\ WF (pl_commands pl) /\ WF (pl_extra pl) /\ WF (pl_info pl).

Lemma write_logs_ok s : Inv s -> NoDup (akeys (c_models (cx s))) ->
  exists sf, write_logs s = Ok sf /\ ev sf = ev s /\ sm sf = sm s /\
    (exists lg, cx sf = set_log (cx s) lg) /\
    forall p, In p (akeys (c_models (cx s))) -> exists pl, dget (c_log (cx sf)) p = Some pl /\ log_matches s p pl.
Proof.
  intros I N. unfold write_logs.
  assert (St : forall l pre s1, (forall p, In p l -> In p (akeys (c_models (cx s)))) -> NoDup (pre ++ l) ->
     ev s1 = ev s -> sm s1 = sm s -> (exists lg, cx s1 = set_log (cx s) lg) ->
     (forall p, In p pre -> exists pl, dget (c_log (cx s1)) p = Some pl /\ log_matches s p pl) ->
     exists sf, rfold write_log s1 l = Ok sf /\ ev sf = ev s /\ sm sf = sm s /\
       (exists lg, cx sf = set_log (cx s) lg) /\
       forall p, In p (pre ++ l) -> exists pl, dget (c_log (cx sf)) p = Some pl /\ log_matches s p pl).
  { induction l as [|p r IH]; intros pre s1 Hk Nd H1 H2 H3 H4.
    - exists s1. rewrite app_nil_r. auto.
    - cbn [rfold]. destruct (i_lg _ I p) as (l & L1 & L2); [apply Hk; left; reflexivity|].
      assert (Hw : write_log s1 p = Ok (upd_cx s1 (set_log (cx s1) (dset (c_log (cx s1)) p (mkLog (mkSeq (b_ts (lg_states l)) (b_vs (lg_states l)) true)
        (mkSeq (b_ts (lg_commands l)) (b_vs (lg_commands l)) true)
        (mkSeq (b_ts (lg_extra l)) (b_vs (lg_extra l)) true)
        (mkSeq (b_ts (lg_info l)) (b_vs (lg_info l)) true)))))).
      { unfold write_log, agetE. rewrite H2. unfold logger_of in L1. rewrite L1, logger_as_sequence_ok by exact L2. reflexivity. }
      rewrite Hw. replace (pre ++ p :: r) with ((pre ++ [p]) ++ r) in * by (rewrite <- app_assoc; reflexivity).
      assert (Np : ~ In p pre).
      { rewrite <- app_assoc in Nd. cbn in Nd. apply NoDup_remove_2 in Nd. intro C; apply Nd. apply in_or_app; left; exact C. }
      apply IH.
      + intros q Hq. apply Hk. right; exact Hq.
      + exact Nd.
      + exact H1.
      + exact H2.
      + destruct H3 as [lg H3]. cbn. rewrite H3. cbn. eexists; reflexivity.
      + intros q Hq. cbn. rewrite dget_dset. destruct (Nat.eqb_spec p q) as [<-|Nq].
        * eexists. split; [reflexivity|]. unfold log_matches, states_log, commands_log, extra_log, info_log. rewrite L1.
          destruct L2 as (W1 & W2 & W3 & W4). repeat (split; [first [reflexivity|assumption]|]). exact W4.
        * apply H4. apply in_app_iff in Hq as [Hq|[->|[]]]; [exact Hq|congruence]. }
  apply (St _ [] s); auto.
  - exists (c_log (cx s)). destruct (cx s); reflexivity.
  - intros p [].
Qed.
End Err.
