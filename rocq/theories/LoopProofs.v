(** An iteration of the simulator as a sequence of single changes of the models, and what
    follows for properties that every single change preserves. *)
From Coq Require Import QArith Qcanon ZArith List Bool Arith Lia.
From Verif Require Import Base Num DictLemmas SeqModel SimulatorModel SimulatorSpec SimulatorProofs SimulatorProofs2 SimulatorProofs3 SimulatorProofs4 SimulatorProofs5 SimulatorProofs6 SimulatorProofs7 SimulatorMain.
Import ListNotations.
Open Scope Qc_scope.

Section Micro.
Context {W : world}.
Notation snap := (list (player * w_M W) * list (event W))%type.


Inductive many (R : snap -> snap -> Prop) : snap -> snap -> Prop :=
| many_none x : many R x x
| many_more x y z : R x y -> many R y z -> many R x z.
Lemma many_one (R : snap -> snap -> Prop) x y : R x y -> many R x y.
Proof. intro H. econstructor; [exact H|constructor]. Qed.
Lemma many_app (R : snap -> snap -> Prop) x y z : many R x y -> many R y z -> many R x z.
Proof. induction 1; eauto using many. Qed.

(** Nothing hits anything. *)
Inductive quiet (d : Qc) : snap -> snap -> Prop :=
| q_ask ms l p t f o u : quiet d (ms, l) (ms, EAsk p t f o u :: l)
| q_leave ms l p t : quiet d (ms, l) (ms, ELeave p t :: l)
| q_move ms l p t u m m' : dget ms p = Some m -> model_step W m u d = Ok m' -> quiet d (ms, l) (dset ms p m', EMove p t u m m' :: l).
(** One collision. *)
Inductive bump (sc : w_scen W) (t : Qc) : snap -> snap -> Prop :=
| b_env ms l p i ob m m' out : dget ms p = Some m -> resolve_env W p ob t m = (m', out) -> (forall e, out = Err e -> e = CollisionException) ->
    bump sc t (ms, l) (dset ms p m', EEnv p i t (is_dyn W m') out :: l)
| b_pair ms l p q a b a' b' out : p <> q -> dget ms p = Some a -> dget ms q = Some b -> resolve W sc p q t a b = ((a', b'), out) -> (forall e, out = Err e -> e = CollisionException) ->
    bump sc t (ms, l) (dset (dset ms p a') q b', EPair p q t out :: l).

Definition snap_of (s : st W) : snap := (c_models (cx s), ev s).

Lemma rfold_many {A} (R : snap -> snap -> Prop) (Q : st W -> Prop) (f : st W -> A -> result (st W)) l :
  (forall s a s', In a l -> Q s -> f s a = Ok s' -> many R (snap_of s) (snap_of s') /\ Q s') ->
  forall s s', Q s -> rfold f s l = Ok s' -> many R (snap_of s) (snap_of s') /\ Q s'.
Proof.
  induction l as [|a r IH]; intros H s s' Hq E; cbn [rfold] in E.
  - injection E as <-. split; [constructor|exact Hq].
  - destruct (f s a) as [s1|] eqn:E1; [|discriminate]. destruct (H s a s1 (or_introl eq_refl) Hq E1) as [M1 Q1].
    destruct (IH (fun s0 b s0' Hb => H s0 b s0' (or_intror Hb)) s1 s' Q1 E) as [M2 Q2]. split; [eapply many_app; eassumption|exact Q2].
Qed.

Lemma update_player_micro d t s p s' : param s = d -> update_player t s p = Ok s' -> many (quiet (dt d)) (snap_of s) (snap_of s') /\ param s' = d.
Proof.
  intros D H. pose proof (update_player_ok _ _ _ _ H) as (F & _ & _). split; [|unfold param in *; rewrite (f_cfg _ _ F); exact D].
  unfold update_player in H.
  destruct (dgetE (c_models (cx s)) p) as [m|] eqn:E1; [|discriminate].
  destruct (with_logger s p _) as [s1|] eqn:E2; [|discriminate].
  apply with_logger_ev in E2 as [E2 E2'].
  destruct (if need_commands s1 then ask s1 p t else Ok s1) as [s2|] eqn:E3; [|discriminate].
  destruct (dgetE (s_cmds (sm s2)) p) as [u|] eqn:E4; [|discriminate].
  destruct (dgetE (c_models (cx s2)) p) as [m2|] eqn:E5; [|discriminate]. apply agetE_Ok in E5.
  destruct (model_step W m2 u (dt (param s2))) as [m'|] eqn:E6; [|discriminate]. injection H as <-.
  assert (G : many (quiet (dt d)) (snap_of s) (snap_of s2) /\ param s2 = d).
  { destruct (need_commands s1).
    - apply ask_ok in E3 as (f&f'&o&a&a'&a''&u'&x&l2&A1&A2&A3&A4&A5&A6&A7&A8&A9&A10&A11&A12&A13). split.
      + apply many_one. unfold snap_of. rewrite A12, A8, E2, E2'. constructor.
      + unfold param in *. rewrite (f_cfg _ _ A7), E2'. exact D.
    - injection E3 as <-. split; [|unfold param in *; rewrite E2'; exact D]. unfold snap_of. rewrite E2, E2'. constructor. }
  destruct G as [G1 G2]. eapply many_app; [exact G1|]. apply many_one. unfold snap_of; cbn. rewrite G2 in E6. constructor; assumption.
Qed.

Lemma update_micro s s' : update s = Ok s' -> many (quiet (dt (param s))) (snap_of s) (snap_of s') /\ param s' = param s.
Proof.
  unfold update. intro H. cbv zeta in H. destruct (rfold (update_player (time s)) s (akeys (c_players (cx s)))) as [s1|] eqn:E; [|discriminate].
  destruct (rfold_many (quiet (dt (param s))) (fun x => param x = param s) _ _ (fun x a x' _ Hx Ex => update_player_micro (param s) _ x a x' Hx Ex) s s1 eq_refl E) as [M P].
  destruct (need_commands s1); injection H as <-; split; assumption.
Qed.

Lemma remove1_micro d s pm s' : remove_finished1 s pm = Ok s' -> many (quiet d) (snap_of s) (snap_of s').
Proof.
  destruct pm as [p g]. unfold remove_finished1. intro H. destruct (dmem (c_players (cx s)) p); [|injection H as <-; constructor].
  destruct (dgetE (c_models (cx s)) p) as [md|] eqn:E1; [|discriminate].
  destruct (goal_done W g (get_state W md) (time s)) as [[|]|] eqn:E2; [|injection H as <-; constructor|discriminate].
  destruct (with_logger s p _) as [s1|] eqn:E3; [|discriminate]. injection H as <-. apply with_logger_ev in E3 as [E3 E3'].
  apply many_one. unfold snap_of; cbn. rewrite E3, E3'. constructor.
Qed.
Lemma remove_micro d s s' : remove_finished s = Ok s' -> many (quiet d) (snap_of s) (snap_of s').
Proof. unfold remove_finished. intro H. apply (rfold_many (quiet d) (fun _ => True) _ _ (fun x a x' _ _ Ex => conj (remove1_micro d x a x' Ex) I) s s' I H). Qed.

Definition fixed (sc : w_scen W) (t : Qc) (s : st W) : Prop := g_scen (c_cfg (cx s)) = sc /\ time s = t.
Lemma check_env1_micro sc t p s i s' : fixed sc t s -> check_env1 p s i = Ok s' -> many (bump sc t) (snap_of s) (snap_of s') /\ fixed sc t s'.
Proof.
  intros [F1 F2] H. unfold check_env1 in H. destruct (dgetE (c_models (cx s)) p) as [m|] eqn:E1; [|discriminate]. apply agetE_Ok in E1.
  destruct (item (obstacles W (g_scen (c_cfg (cx s)))) i) as [ob|] eqn:E2; [|discriminate].
  destruct (resolve_env W p ob (time s) m) as [m' out] eqn:E3. rewrite F2 in *.
  assert (X : forall e, out = Err e -> e = CollisionException) by (intros e ->; destruct e; try discriminate H; reflexivity).
  assert (B : bump sc t (snap_of s) (dset (c_models (cx s)) p m', EEnv p i t (is_dyn W m') out :: ev s)) by (eapply b_env; eassumption).
  destruct out as [[r|]|e].
  - destruct (is_dyn W m') eqn:Ed; injection H as <-; (split; [apply many_one; exact B|split; assumption]).
  - injection H as <-. split; [apply many_one; exact B|split; assumption].
  - rewrite (X e eq_refl) in *. destruct (is_dyn W m') eqn:Ed; injection H as <-; (split; [apply many_one; exact B|split; assumption]).
Qed.
Lemma check_env_micro sc t s s' : fixed sc t s -> check_env s = Ok s' -> many (bump sc t) (snap_of s) (snap_of s') /\ fixed sc t s'.
Proof.
  intros F H. unfold check_env in H. refine (rfold_many (bump sc t) (fixed sc t) _ _ _ s s' F H). intros x p x' _ Fx Ex. unfold check_env_player in Ex.
  destruct (dgetE (c_models (cx x)) p) as [m|]; [|discriminate]. refine (rfold_many (bump sc t) (fixed sc t) _ _ _ x x' Fx Ex). intros y i y' _. apply check_env1_micro.
Qed.

Lemma check_pair_micro sc t s p q s' : p <> q -> fixed sc t s -> check_pair s (p, q) = Ok s' -> many (bump sc t) (snap_of s) (snap_of s') /\ fixed sc t s'.
Proof.
  intros N [F1 F2] H. unfold check_pair in H. destruct (dgetE (c_models (cx s)) p) as [a|] eqn:E1; [|discriminate]. apply agetE_Ok in E1.
  destruct (dgetE (c_models (cx s)) q) as [b|] eqn:E2; [|discriminate]. apply agetE_Ok in E2.
  destruct (intersects W (footprint W a) (footprint W b)); [|injection H as <-; split; [constructor|split; assumption]].
  destruct (resolve W (g_scen (c_cfg (cx s))) p q (time s) a b) as [[a' b'] out] eqn:E3. rewrite F1, F2 in *.
  assert (X : forall e, out = Err e -> e = CollisionException) by (intros e ->; destruct e; try discriminate H; reflexivity).
  assert (B : bump sc t (snap_of s) (dset (dset (c_models (cx s)) p a') q b', EPair p q t out :: ev s)) by (eapply b_pair; eassumption).
  destruct out as [[r|]|e].
  - injection H as <-. split; [apply many_one; exact B|split; assumption].
  - injection H as <-. split; [apply many_one; exact B|split; assumption].
  - rewrite (X e eq_refl) in *. injection H as <-. split; [apply many_one; exact B|split; assumption].
Qed.
Lemma check_players_micro sc t s s' : NoDup (akeys (c_players (cx s))) -> fixed sc t s -> check_players s = Ok s' -> many (bump sc t) (snap_of s) (snap_of s') /\ fixed sc t s'.
Proof.
  intros N F H. unfold check_players in H. refine (rfold_many (bump sc t) (fixed sc t) _ _ _ s s' F H). intros x [p q] x' Hin Fx. apply check_pair_micro; [|exact Fx].
  eapply combinations2_neq; eassumption.
Qed.

(** An iteration: first everybody moves, then come the collisions. *)
Lemma step_micro s s' : NoDup (akeys (c_players (cx s))) -> NoDup (akeys (g_missions (c_cfg (cx s)))) -> step s = Ok s' ->
  exists mid, many (quiet (dt (param s))) (snap_of s) mid /\ many (bump (g_scen (c_cfg (cx s))) (time s')) mid (snap_of s') /\ (c_term (cx s') = true -> mid = snap_of s').
Proof.
  intros N NM H. pose proof (step_ok _ _ N NM H) as SR. unfold step in H.
  destruct (pre_update s) as [s1|] eqn:E1; [|discriminate]. apply pre_update_ok in E1 as (P1 & P2 & _).
  destruct (update s1) as [s2|] eqn:E2; [|discriminate].
  assert (N1 : NoDup (akeys (c_players (cx s1)))) by (rewrite P1; exact N).
  pose proof (update_ok _ _ N1 E2) as ((s1' & F & F2 & _) & _).
  apply update_micro in E2 as [U1 U2].
  unfold post_update in H. destruct (remove_finished _) as [s3|] eqn:E3; [|discriminate].
  assert (K2 : akeys (c_players (cx s2)) = akeys (c_players (cx s1))) by (rewrite F2; apply (f_players _ _ F)).
  assert (C2 : c_cfg (cx s2) = c_cfg (cx s)) by (rewrite F2, (f_cfg _ _ F), P1; reflexivity).
  pose proof (remove_finished_ok (upd_cx s2 (set_time (cx s2) (time s2 + dt (param s2)))) s3) as RF. cbn in RF. rewrite K2, C2 in RF. specialize (RF N1 NM E3). destruct RF as (RF & N3 & _).
  pose proof (remove_micro (dt (param s)) _ _ E3) as R1.
  assert (Q : many (quiet (dt (param s))) (snap_of s) (snap_of s3)).
  { eapply many_app; [|exact R1]. replace (param s) with (param s1) by (unfold param; rewrite P1; reflexivity). replace (snap_of s) with (snap_of s1) by (unfold snap_of; rewrite P1, P2; reflexivity). exact U1. }
  exists (snap_of s3). split; [exact Q|].
  assert (C3 : c_cfg (cx s3) = c_cfg (cx s)) by (rewrite (r_cfg _ _ RF); cbn; exact C2).
  destruct (c_term (cx (maybe_terminate s3))) eqn:Et.
  { injection H as <-. split; [constructor|reflexivity]. }
  destruct (check_env (maybe_terminate s3)) as [s4|] eqn:E4; [|discriminate].
  assert (NE : NoDup (akeys (c_players (cx s4)))).
  { assert (N3' : NoDup (akeys (c_players (cx (maybe_terminate s3))))) by exact N3. apply check_env_ok in E4 as (nw & CR); [|exact N3']. rewrite (cr_players _ _ _ _ _ CR). exact N3. }
  pose proof (check_players_ok _ _ NE H) as (np & nw & CR & _).
  pose proof (check_env_ok _ _ (N3 : NoDup (akeys (c_players (cx (maybe_terminate s3))))) E4) as (nw' & CR').
  assert (T4 : time s' = time (maybe_terminate s3)) by (unfold time; rewrite (cr_time _ _ _ _ _ CR), (cr_time _ _ _ _ _ CR'); reflexivity).
  assert (F3 : fixed (g_scen (c_cfg (cx s))) (time s') (maybe_terminate s3)) by (split; [cbn; rewrite C3; reflexivity|symmetry; exact T4]).
  destruct (check_env_micro _ _ _ _ F3 E4) as [B1 F4]. destruct (check_players_micro _ _ _ _ NE F4 H) as [B2 _].
  split; [exact (many_app _ _ _ _ B1 B2)|]. intro Ht. rewrite (cr_term _ _ _ _ _ CR), (cr_term _ _ _ _ _ CR') in Ht. congruence.
Qed.

(** A run as a sequence of single changes. *)
Definition change (d : Qc) (sc : w_scen W) (x y : snap) : Prop := quiet d x y \/ exists t, bump sc t x y.
Lemma many_weaken (R R' : snap -> snap -> Prop) x y : (forall a b, R a b -> R' a b) -> many R x y -> many R' x y.
Proof. intros H. induction 1; [constructor|econstructor; eauto]. Qed.
Lemma run_micro (c : ctx W) s0 k s n s' : started c s0 -> 0 < dt (g_param (c_cfg c)) -> after s0 k s -> after s n s' ->
  many (change (dt (g_param (c_cfg c))) (g_scen (c_cfg c))) (snap_of s) (snap_of s').
Proof.
  intros S D A B. induction B as [|n s1 s2 B IH Ht Hs]; [constructor|]. eapply many_app; [exact IH|].
  pose proof (started_facts c s0 _ s1 S D (after_trans _ _ _ A _ _ B)) as [I C P _ _ _ _].
  destruct (step_micro s1 s2 (i_nd _ I) (i_ndm _ I) Hs) as (mid & M1 & M2 & _).
  rewrite P in M1. rewrite C in M2. eapply many_app.
  - eapply many_weaken; [|exact M1]. intros a b Q. left. exact Q.
  - eapply many_weaken; [|exact M2]. intros a b Q. right. eexists. exact Q.
Qed.

(** The samples of the log that a run leaves are states of the models on the way. *)
Lemma run_log (c : ctx W) m fuel sf : valid_ctx c -> unused m -> 0 < dt (g_param (c_cfg c)) -> run fuel m c = Some (Ok sf) ->
  exists s0 k s, started c s0 /\ after s0 k s /\ c_models (cx s0) = c_models c /\ ev s0 = [] /\ c_models (cx sf) = c_models (cx s) /\ c_reports (cx sf) = c_reports (cx s) /\ ev sf = ev s /\
    forall p t x, In p (akeys (c_models c)) -> (exists pl, dget (c_log (cx sf)) p = Some pl /\ In (t, x) (iter (pl_states pl))) ->
      exists i si mi, (i <= k)%nat /\ after s0 i si /\ model_of si p = Some mi /\ x = get_state W mi /\ t = time si.
Proof.
  intros V U D H. unfold run in H. destruct (init_run c m) as [s0|] eqn:E0; [|discriminate].
  assert (S : started c s0) by (split; [exact V|eauto]).
  destruct (loop fuel s0) as [[s|e1]|] eqn:El; [|discriminate|discriminate].
  destruct (loop_after s0 fuel 0 s0 s (after_0 s0) El) as (k & A & T). exists s0, k, s.
  pose proof (started_facts _ _ _ _ S D A) as F. destruct (write_logs_ok s) as (sf' & E & E1 & E2 & (lg & E3) & E4).
  { exact (fa_inv _ _ _ _ F). }
  { rewrite (fa_models _ _ _ _ F). apply V. }
  assert (sf' = sf) by congruence. subst sf'. apply init_run_ok in E0 as (_ & Q2 & _ & _ & _ & _ & _ & _ & _ & Q10 & _).
  split; [exact S|]. split; [exact A|]. split; [exact Q2|]. split; [exact Q10|]. split; [rewrite E3; reflexivity|]. split; [rewrite E3; reflexivity|]. split; [exact E1|].
  intros p t x Hp (pl & P1 & P2). assert (Hp' := Hp). rewrite <- (fa_models _ _ _ _ F) in Hp'. destruct (E4 p Hp') as (pl' & L & (M1 & _)).
  assert (pl' = pl) by congruence. subst pl'. rewrite M1 in P2.
  destruct (C20_each_tick_logged_once_pf W c s0 k s p S D A Hp) as [_ L2]. apply L2 in P2 as [(i & si & I1 & I2 & _ & I3 & I4)|(i & si & si' & I1 & _ & I2 & _ & _ & I3 & I4)].
  - exists i, si. unfold state_of in I4. destruct (model_of si p) as [mi|]; [|discriminate]. injection I4 as <-. exists mi. repeat split; auto. lia.
  - exists (Datatypes.S i), si'. unfold state_of in I4. destruct (model_of si' p) as [mi|]; [|discriminate]. injection I4 as <-. exists mi. repeat split; auto.
Qed.

(** What single changes preserve. *)
Lemma many_inv (R : snap -> snap -> Prop) (Q : snap -> Prop) : (forall x y, R x y -> Q x -> Q y) -> forall x y, many R x y -> Q x -> Q y.
Proof. intros H x y. induction 1; eauto. Qed.

Variable T : player -> w_M W -> w_M W -> Prop.
Hypothesis T_refl : forall p m, T p m m.
Hypothesis T_trans : forall p a b c, T p a b -> T p b c -> T p a c.
Lemma lineage d sc : (forall p m u m', model_step W m u d = Ok m' -> T p m m') -> (forall p ob t m m' out, resolve_env W p ob t m = (m', out) -> T p m m') ->
  (forall p q t a b a' b' out, p <> q -> resolve W sc p q t a b = ((a', b'), out) -> T p a a' /\ T q b b') ->
  forall x y, many (change d sc) x y -> forall p m, dget (fst x) p = Some m -> exists m', dget (fst y) p = Some m' /\ T p m m'.
Proof.
  intros H1 H2 H3 x y. induction 1 as [x|x y z [Q|(t & Q)] M IH]; intros p m Hp; [exists m; split; [exact Hp|apply T_refl]| |].
  - inversion Q as [ms l p' t f o u E1 E2|ms l p' t E1 E2|ms l p' t u m0 m1 G S E1 E2]; subst x y; cbn [fst] in *; try (apply IH; exact Hp).
    destruct (Nat.eq_dec p p') as [->|Np].
    + assert (m = m0) as -> by congruence. destruct (IH p' m1) as (m' & I1 & I2); [apply dget_dset_same|]. exists m'. split; [exact I1|]. eapply T_trans; [eapply H1; exact S|exact I2].
    + apply IH. rewrite dget_dset_other by congruence. exact Hp.
  - inversion Q as [ms l p' i ob m0 m1 out G S E X|ms l p' q a b a' b' out N G1 G2 S E X]; subst x y; cbn [fst] in *.
    + destruct (Nat.eq_dec p p') as [->|Np].
      * assert (m = m0) as -> by congruence. destruct (IH p' m1) as (m' & I1 & I2); [apply dget_dset_same|]. exists m'. split; [exact I1|]. eapply T_trans; [eapply H2; exact S|exact I2].
      * apply IH. rewrite dget_dset_other by congruence. exact Hp.
    + destruct (H3 _ _ _ _ _ _ _ _ N S) as [Ta Tb]. destruct (Nat.eq_dec p q) as [->|Nq].
      * assert (m = b) as -> by congruence. destruct (IH q b') as (m' & I1 & I2); [apply dget_dset_same|]. exists m'. split; [exact I1|]. eapply T_trans; eassumption.
      * destruct (Nat.eq_dec p p') as [->|Np].
        -- assert (m = a) as -> by congruence. destruct (IH p' a') as (m' & I1 & I2); [rewrite dget_dset_other by congruence; apply dget_dset_same|]. exists m'. split; [exact I1|]. eapply T_trans; eassumption.
        -- apply IH. rewrite !dget_dset_other by congruence. exact Hp.
Qed.
End Micro.
