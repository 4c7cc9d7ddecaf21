(* Generated from tools/Cause.src by tools/gen_props.py. *)
(** What drives the agents and sensors of a simulation. *)
From Coq Require Import QArith Qcanon ZArith List Bool Arith Lia Sorted.
From Verif Require Import Base Num SeqModel SeqSpec VehState CtrlModel CtrlSpec AgentModel AgentSpec AgentMain PerceptionModel PerceptionSpec PerceptionMain PerceptionExamples SimulatorModel SimulatorSpec DictLemmas SimulatorProofs SimulatorProofs2 SimulatorProofs4 SimulatorProofs5 SimulatorProofs7 SimulatorWorld CauseSpec CauseProofs.
Import ListNotations.
Open Scope Qc_scope.

(** At every point of every simulation the agent of a player is the object one gets by initialising the agent of the context and showing it, on its own, the observations delivered to it so far; its answers are what is logged, with the times of the requests.  Nothing else of the simulation reaches it. *)
Lemma C134_agents_pf : forall W (c : ctx W) s0 k s p, started c s0 -> 0 < dt (g_param (c_cfg c)) -> after s0 k s -> In p (akeys (c_models c)) ->
  exists a1 a us, initialised c p a1 /\ talks a1 (map ask_given (asks s p)) a us /\
    (active s p -> dget (c_players (cx s)) p = Some a) /\
    commands_log s p = combine (map ask_t (asks s p)) (map fst us) /\
    extra_log s p = extras (combine (map ask_t (asks s p)) us).
Proof.
  intros W c s0 k s p S D A Hp. destruct (J_holds c s0 k s p S D A Hp) as (a1 & I & [J1 J2 _ _]). destruct J2 as (a & us & l & T & T2 & Ha & L & _ & Ls).
  exists a1, a, us. split; [exact I|]. split; [exact T|]. split.
  - intro Hact. unfold active in Hact. destruct (dget (c_players (cx s)) p) as [b|] eqn:E; [f_equal; auto|]. exfalso. apply dget_In_keys in Hact. congruence.
  - rewrite (ai_cmds _ _ _ _ (ainv_holds _ _ S D _ _ A) p Hp), <- T2. unfold extra_log. rewrite L. split; [|exact Ls].
    clear. induction (asks s p) as [|b r IH]; [reflexivity|]. cbn. rewrite <- IH. reflexivity.
Qed.

(** Likewise the sensor of a player is the sensor of the context after the full observations shown to it so far, and what it let through is what the agent was given. *)
Lemma C134_sensors_pf : forall W (c : ctx W) s0 k s p, started c s0 -> 0 < dt (g_param (c_cfg c)) -> after s0 k s -> In p (akeys (c_models c)) ->
  (forall f0, get_sensor c p = Ok f0 -> exists f, get_sensor (cx s) p = Ok f /\
     watches (g_scen (c_cfg c)) p f0 (map ask_seen (asks s p)) f (map ask_given (asks s p))) /\
  (forall e, get_sensor c p = Err e -> asks s p = []).
Proof.
  intros W c s0 k s p S D A Hp. destruct (J_holds c s0 k s p S D A Hp) as (a1 & I & [_ _ J3 J4]). split; [exact J3|]. intros e He. apply (J4 e He).
Qed.

(** No look-ahead and no side channel: take two simulations, with any other players, obstacles, scenarios and parameters, in which the agent of a player starts the same.  As long as it is given the same observations it gives the same commands. *)
Lemma C134_no_look_ahead_pf : forall W (c d : ctx W) s0 z0 k j s z p q n a, started c s0 -> started d z0 -> 0 < dt (g_param (c_cfg c)) -> 0 < dt (g_param (c_cfg d)) ->
  after s0 k s -> after z0 j z -> In p (akeys (c_models c)) -> In q (akeys (c_models d)) ->
  initialised c p a -> initialised d q a ->
  firstn n (map ask_given (asks s p)) = firstn n (map ask_given (asks z q)) ->
  firstn n (map ask_cmd (asks s p)) = firstn n (map ask_cmd (asks z q)).
Proof.
  intros W c d s0 z0 k j s z p q n a Sc Sd Dc Dd A B Hp Hq Ip Iq E.
  destruct (J_holds c s0 k s p Sc Dc A Hp) as (a1 & I1 & [_ J1 _ _]). rewrite (initialised_fun _ _ _ _ I1 Ip) in J1. destruct J1 as (b & us & _ & T & T2 & _).
  destruct (J_holds d z0 j z q Sd Dd B Hq) as (a2 & I2 & [_ J2 _ _]). rewrite (initialised_fun _ _ _ _ I2 Iq) in J2. destruct J2 as (b' & us' & _ & T' & T2' & _).
  rewrite T2, T2'. rewrite !firstn_map.
  assert (X : forall (l : list (simobs (w_X W) (w_F W))), firstn n l = firstn (min n (length l)) l).
  { intro l. destruct (Nat.le_gt_cases n (length l)); [rewrite min_l by lia; reflexivity|rewrite min_r by lia; rewrite firstn_all; apply firstn_all2; lia]. }
  assert (Y : forall l : list (w_U W * option (w_E W)), firstn n l = firstn (min n (length l)) l).
  { intro l. destruct (Nat.le_gt_cases n (length l)); [rewrite min_l by lia; reflexivity|rewrite min_r by lia; rewrite firstn_all; apply firstn_all2; lia]. }
  rewrite (X (map _ _)), (X (map ask_given (asks z q))) in E.
  destruct (talks_prefix _ _ _ _ T (min n (length (map ask_given (asks s p)))) ltac:(lia)) as (x & P1).
  destruct (talks_prefix _ _ _ _ T' (min n (length (map ask_given (asks z q)))) ltac:(lia)) as (y & P2).
  rewrite E in P1. destruct (talks_fun _ _ _ _ P1 _ _ P2) as [_ U].
  rewrite (Y us), (Y us'), (talks_len _ _ _ _ T), (talks_len _ _ _ _ T'), U. reflexivity.
Qed.

Lemma request_facts W (c : ctx W) s0 k s p b : started c s0 -> 0 < dt (g_param (c_cfg c)) -> after s0 k s -> In b (asks s p) ->
  exists i si, (i < k)%nat /\ after s0 i si /\ active si p /\ ask_t b = time si /\ snapshot si (ask_seen b) /\ o_time (ask_seen b) = ask_t b /\ proper (ask_seen b).
Proof.
  intros S D A H. destruct (ai_seen _ _ _ _ (ainv_holds _ _ S D _ _ A) p b H) as (i & si & si' & f & f' & ag & ag' & L & Ai & _ & Hact & Ht & Sn & _).
  exists i, si. split; [exact L|]. split; [exact Ai|]. split; [exact Hact|]. split; [exact Ht|]. split; [exact Sn|]. destruct Sn as (T & K & _).
  split; [congruence|]. unfold proper. change (NoDup (akeys (o_players (ask_seen b)))). rewrite K. apply (i_nd _ (fa_inv _ _ _ _ (started_facts _ _ _ _ S D Ai))).
Qed.

Lemma talks_pointwise W (a0 : w_A W) (P : w_A W -> Prop) (R : simobs (w_X W) (w_F W) -> w_U W -> Prop) os a us : P a0 ->
  (forall b o b1 u b2 x, P b -> agent_cmds W b o = Ok (b1, u) -> agent_extra W b1 = Ok (b2, x) -> P b2 /\ R o u) ->
  talks a0 os a us -> P a /\ Forall2 R os (map fst us).
Proof.
  intros H0 HS T. induction T as [|os a us o a1 u a2 x T IH C E]; [split; [exact H0|constructor]|]. destruct IH as [IH1 IH2]. destruct (HS _ _ _ _ _ _ IH1 C E) as [K1 K2]. split; [exact K1|].
  rewrite map_app. apply Forall2_app; [exact IH2|]. constructor; [exact K2|constructor].
Qed.

(** An NPAgent plays its plan: each logged command is the plan's command at the time of the observation it was given, and with the default sensors (or any sensor that passes the observation on) this is the time of the log entry. *)
Lemma C134_open_loop_pf : forall W (c : ctx W) emb s0 k s p plan, open_loop W emb -> obtainable plan -> started c s0 -> 0 < dt (g_param (c_cfg c)) -> after s0 k s ->
  dget (c_players c) p = Some (emb plan) ->
  (forall b, In b (asks s p) -> is_prev_sample plan (o_time (ask_given b)) (ask_cmd b)) /\
  ((forall f0 f sc o, get_sensor c p = Ok f0 -> sense W f0 sc o p = Ok (f, o) /\ f = f0) ->
   forall t u, In (t, u) (commands_log s p) -> is_prev_sample plan t u).
Proof.
  intros W c emb s0 k s p plan (E1 & E2 & E3) Ob S D A Pl. destruct (valid_ctx_keys _ (proj1 S)) as [K1 _].
  assert (Hp : In p (akeys (c_models c))) by (apply K1; eapply dget_Some_In; exact Pl).
  destruct (J_holds c s0 k s p S D A Hp) as (a1 & (a0 & m & I1 & I2 & I3) & [_ J2 J3 J4]). rewrite Pl in I1. injection I1 as <-. rewrite E1 in I3. injection I3 as <-.
  destruct J2 as (a & us & _ & T & T2 & _).
  assert (F : Forall2 (fun o u => is_prev_sample plan (o_time o) u) (map ask_given (asks s p)) (map fst us)).
  { refine (proj2 (talks_pointwise W _ (fun b => b = emb plan) _ _ _ _ eq_refl _ T)). intros b o b1 u b2 x -> C E. rewrite E2 in C.
    destruct (np_get_commands plan o) as [v|] eqn:N; [|discriminate]. injection C as <- <-. rewrite E3 in E. injection E as <- _. split; [reflexivity|].
    apply (proj1 (C34_plan_is_played_pf _ _ _ plan o Ob)). exact N. }
  rewrite <- T2 in F.
  assert (P1 : forall b, In b (asks s p) -> is_prev_sample plan (o_time (ask_given b)) (ask_cmd b)).
  { clear -F. induction (asks s p) as [|b r IH]; [intros b []|]. cbn in F. inversion F; subst. intros b' [<-|Hb]; auto. }
  split; [exact P1|]. intros Id t u Hu. rewrite (ai_cmds _ _ _ _ (ainv_holds _ _ S D _ _ A) p Hp) in Hu. apply in_map_iff in Hu as (b & [= <- <-] & Hb).
  destruct (get_sensor c p) as [f0|e] eqn:G; [|destruct (J4 e eq_refl) as [_ N]; rewrite N in Hb; destruct Hb].
  destruct (J3 f0 eq_refl) as (f & _ & Wt).
  assert (X : f = f0 /\ map ask_given (asks s p) = map ask_seen (asks s p)).
  { clear -Id Wt. induction Wt as [|fs f os full f' o Wt [-> IH] C]; [auto|]. destruct (Id f0 f' (g_scen (c_cfg c)) full eq_refl) as [Q1 Q2].
    assert (f0 = f0) by reflexivity. destruct (Id f0 f0 (g_scen (c_cfg c)) full eq_refl) as [Q3 _]. rewrite Q3 in C. injection C as <- <-. rewrite IH. auto. }
  destruct X as [_ X]. assert (Eb : ask_given b = ask_seen b).
  { clear -X Hb. revert X Hb. induction (asks s p) as [|b' r IH]; [intros _ []|]. cbn. intros [= H1 H2] [<-|Hb]; auto. }
  destruct (request_facts W c s0 k s p b S D A Hb) as (_ & _ & _ & _ & _ & _ & _ & Tt & _). rewrite <- Tt, <- Eb. apply P1. exact Hb.
Qed.

Lemma follower_run W (c : ctx W) PP G Lane (env : lf_env (w_X W) PP G Lane) emb cmd s0 k s p a0 : lane_following W env emb cmd -> started c s0 -> 0 < dt (g_param (c_cfg c)) -> after s0 k s ->
  dget (c_players c) p = Some (emb a0) ->
  exists a us, lf_run env (lf_init a0 p) (map ask_given (asks s p)) a us /\ commands_log s p = combine (map ask_t (asks s p)) (map cmd us) /\
    (active s p -> dget (c_players (cx s)) p = Some (emb a)).
Proof.
  intros (E1 & E2 & E3) S D A Pl. destruct (valid_ctx_keys _ (proj1 S)) as [K1 _].
  assert (Hp : In p (akeys (c_models c))) by (apply K1; eapply dget_Some_In; exact Pl).
  destruct (C134_agents_pf W c s0 k s p S D A Hp) as (a1 & a & us & (a0' & m & I1 & I2 & I3) & T & P' & C & _). rewrite Pl in I1. injection I1 as <-. rewrite E1 in I3. injection I3 as <-.
  assert (X : exists b ws, lf_run env (lf_init a0 p) (map ask_given (asks s p)) b ws /\ a = emb b /\ map fst us = map cmd ws).
  { clear -T E2 E3. induction T as [|os a us o a1 u a2 x T IH Cm Ex]; [exists (lf_init a0 p), []; repeat split; constructor|].
    destruct IH as (b & ws & R & -> & M). rewrite E2 in Cm. destruct (lf_get_commands env b o) as [[b' v]|] eqn:Eb; [|discriminate]. injection Cm as <- <-.
    apply E3 in Ex. exists b', (ws ++ [v]). split; [econstructor; eassumption|]. split; [exact Ex|]. rewrite !map_app, M. reflexivity. }
  destruct X as (b & ws & R & -> & M). exists b, ws. rewrite <- M. auto.
Qed.

Lemma delay_fed W shapes L emb : delay_sensor W shapes L emb -> forall sc p fs f os, watches sc p (emb (mkDelayed tt [])) fs f os -> exists d, f = emb d /\ fed id_sense L tt d fs.
Proof.
  intros DS sc p fs f os H. induction H as [|fs f os full f' o H IH C]; [eexists; split; [reflexivity|constructor]|].
  destruct IH as (d & -> & Fd). rewrite DS in C. destruct (delayed_sense id_sense L d _ full p) as [[d' r]|] eqn:E; [|discriminate]. injection C as <- <-.
  exists d'. split; [reflexivity|]. eapply fed_sense; [exact Fd|exact E|reflexivity].
Qed.

Lemma SS_app_l {B} (R : B -> B -> Prop) l r : StronglySorted R (l ++ r) -> StronglySorted R l.
Proof. induction l as [|a l IH]; cbn; intro H; [constructor|]. inversion H as [|? ? H1 H2]; subst. constructor; [apply IH; exact H1|]. apply Forall_app in H2. apply H2. Qed.

Lemma SS_app_r {B} (R : B -> B -> Prop) l r : StronglySorted R (l ++ r) -> StronglySorted R r.
Proof. induction l as [|a l IH]; cbn; intro H; [exact H|]. inversion H; auto. Qed.

Lemma SS_weaken {B} (R Q : B -> B -> Prop) l : (forall x y, R x y -> Q x y) -> StronglySorted R l -> StronglySorted Q l.
Proof. intros I H. induction H as [|a l H IH F]; constructor; [exact IH|]. eapply Forall_impl; [|exact F]. intros y Hy. apply I. exact Hy. Qed.

Lemma asks_increasing W (c : ctx W) s0 k s p : started c s0 -> 0 < dt (g_param (c_cfg c)) -> after s0 k s -> StronglySorted Qclt (map ask_t (asks s p)).
Proof.
  intros S D A. pose proof (ai_spaced _ _ _ _ (ainv_holds _ _ S D _ _ A) p) as Sp. apply Sorted_StronglySorted; [exact Qclt_trans|].
  revert Sp. induction (asks s p) as [|a r IH]; intro Sp; [constructor|]. cbn. constructor.
  - apply IH. intros pre x y suf E. apply (Sp (a :: pre) x y suf). rewrite E. reflexivity.
  - destruct r as [|b r]; constructor. apply (Sp [] a b r eq_refl).
Qed.

(** A player driven by the lane following agent only ever logs commands within the limits of its vehicle. *)
Lemma C134_lane_follower_limits_pf : forall W (c : ctx W) PP G Lane (env : lf_env (w_X W) PP G Lane) emb cmd s0 k s p order lane vp geo_ sb pp a0,
  lane_following W env emb cmd -> started c s0 -> 0 < dt (g_param (c_cfg c)) -> after s0 k s ->
  lf_new env order lane vp geo_ sb pp = Ok a0 -> dget (c_players c) p = Some (emb a0) ->
  forall t u, In (t, u) (commands_log s p) -> exists v l, u = cmd (v, l) /\
    vp_acc_lo vp <= vc_acc v <= vp_acc_hi vp /\ - vp_ddelta_max vp <= vc_ddelta v <= vp_ddelta_max vp.
Proof.
  intros W c PP G Lane env emb cmd s0 k s p order lane vp geo_ sb pp a0 LF S D A N Pl t u Hu.
  destruct (follower_run W c PP G Lane env emb cmd s0 k s p a0 LF S D A Pl) as (a & us & R & C & _).
  pose proof (C35_commands_in_limits_pf (w_X W) (w_F W) PP G Lane env order lane vp geo_ sb pp p (lf_init a0 p) _ a us (ex_intro _ a0 (conj N eq_refl)) R) as F.
  rewrite C in Hu. apply in_combine_r in Hu. apply in_map_iff in Hu as ([v l] & <- & Hv). rewrite Forall_forall in F. specialize (F _ Hv). cbn in F. exists v, l. tauto.
Qed.

(** From the first emergency in what it is shown, the lane following agent of a simulation keeps a zero speed reference, whatever it is shown later. *)
Lemma C134_lane_follower_emergency_pf : forall W (c : ctx W) PP G Lane (env : lf_env (w_X W) PP G Lane) emb cmd s0 k s p order lane vp geo_ sb pp a0 b,
  lane_following W env emb cmd -> started c s0 -> 0 < dt (g_param (c_cfg c)) -> after s0 k s ->
  lf_new env order lane vp geo_ sb pp = Ok a0 -> dget (c_players c) p = Some (emb a0) ->
  In b (asks s p) -> detects_emergency env (match sb with None => sb_default | Some x => x end) p (ask_given b) -> active s p ->
  exists a, dget (c_players (cx s)) p = Some (emb a) /\ a_pp_speed a = 0 /\ (vp_vx_lo vp <= 0 -> 0 <= vp_vx_hi vp -> reference (a_speed a) = 0).
Proof.
  intros W c PP G Lane env emb cmd s0 k s p order lane vp geo_ sb pp a0 b LF S D A N Pl Hb De Hact.
  destruct (follower_run W c PP G Lane env emb cmd s0 k s p a0 LF S D A Pl) as (a & us & R & _ & P').
  exists a. split; [exact (P' Hact)|]. apply in_split in Hb as (pre & suf & E). rewrite E, map_app in R. cbn [map] in R.
  exact (C35_emergency_latches_pf (w_X W) (w_F W) PP G Lane env order lane vp geo_ sb pp p (lf_init a0 p) _ _ _ a us (ex_intro _ a0 (conj N eq_refl)) R De).
Qed.

(** With a DelayedObsFilter of latency L around the identity filter, what a player is shown at a request is everybody's true state at the time of its first request within the last L, and never anything newer than the present. *)
Lemma C134_delayed_pf : forall W (c : ctx W) shapes L emb s0 k s p b, delay_sensor W shapes L emb -> 0 <= L -> started c s0 -> 0 < dt (g_param (c_cfg c)) -> after s0 k s ->
  In p (akeys (c_models c)) -> get_sensor c p = Ok (emb (mkDelayed tt [])) -> In b (asks s p) ->
  exists r i si, In r (asks s p) /\ ask_t b - L <= ask_t r <= ask_t b /\ after s0 i si /\ time si = ask_t r /\
    (forall q, dget (o_players (ask_given b)) q = if activeb si q then option_map (fun m => (get_state W m, footprint W m)) (model_of si q) else None) /\
    o_time (ask_given b) = ask_t r + L /\
    (forall e, In e (asks s p) -> ask_t e < ask_t r -> ask_t e < ask_t b - L).
Proof.
  intros W c shapes L emb s0 k s p b DS HL St D A Hp G Hb.
  destruct (J_holds c s0 k s p St D A Hp) as (a1 & _ & [_ _ J3 _]). destruct (J3 _ G) as (f & _ & Wt).
  pose proof (ainv_holds _ _ St D _ _ A) as AI. apply in_split in Hb as (pre & suf & E).
  destruct (watches_prefix _ _ _ _ _ _ Wt (S (length pre))) as (g & Wp); [rewrite map_length, E, app_length; cbn; lia|].
  rewrite E in Wp. rewrite !firstn_map in Wp. replace (firstn (S (length pre)) (pre ++ b :: suf)) with (pre ++ [b]) in Wp
    by (rewrite firstn_app, firstn_all2 by lia; replace (S (length pre) - length pre)%nat with 1%nat by lia; reflexivity).
  rewrite !map_app in Wp. cbn [map] in Wp.
  inversion Wp as [E0|fs f1 os full f2 o Wq Sn E1 E2 E3]; [destruct (map ask_seen pre); discriminate|].
  apply app_inj_tail in E1 as [-> ->]. apply app_inj_tail in E3 as [-> ->]. clear Wp.
  destruct (delay_fed W shapes L emb DS _ _ _ _ _ Wq) as (d & -> & Fd).
  rewrite DS in Sn. destruct (delayed_sense id_sense L d _ _ p) as [[d' out]|] eqn:Ds; [|discriminate]. injection Sn as <- Eo.
  assert (Tm : forall e, In e (asks s p) -> o_time (ask_seen e) = ask_t e) by (intros e He; destruct (request_facts W c s0 k s p e St D A He) as (_ & _ & _ & _ & _ & _ & _ & Te & _); exact Te).
  assert (Ord : in_order (map ask_seen pre ++ [ask_seen b])).
  { unfold in_order. change [ask_seen b] with (map ask_seen [b]). rewrite <- map_app, map_map.
    rewrite (map_ext_in _ ask_t) by (intros e He; apply Tm; rewrite E; apply in_app_iff in He as [He|[<-|[]]]; apply in_app_iff; cbn; auto).
    pose proof (asks_increasing W c s0 k s p St D A) as SS. rewrite E in SS. replace (pre ++ b :: suf) with ((pre ++ [b]) ++ suf) in SS by (rewrite <- app_assoc; reflexivity).
    rewrite map_app in SS. apply SS_app_l in SS. eapply SS_weaken; [exact Qclt_le_weak|exact SS]. }
  assert (Inn : id_sense (dl_inner d) (shapes (g_scen (c_cfg c))) (ask_seen b) p = Ok (tt, ask_seen b)) by (destruct (dl_inner d); reflexivity).
  destruct (C32_data_age_pf (w_X W) (w_F W) unit id_sense L tt d (map ask_seen pre) (shapes (g_scen (c_cfg c))) (ask_seen b) p d' out tt (ask_seen b) HL Fd Inn Ord Ds) as (rr & Hr & R1 & R2 & R3 & R4 & R5).
  change [ask_seen b] with (map ask_seen [b]) in Hr. rewrite <- map_app in Hr. apply in_map_iff in Hr as (r & <- & Hr).
  assert (Hr' : In r (asks s p)) by (rewrite E; apply in_app_iff in Hr as [Hr|[<-|[]]]; apply in_app_iff; cbn; auto).
  assert (Hb : In b (asks s p)) by (rewrite E; apply in_app_iff; cbn; auto).
  destruct (request_facts W c s0 k s p r St D A Hr') as (i & si & _ & Ai & _ & Ti & Si & Tr & _).
  rewrite (Tm r Hr'), (Tm b Hb) in *. exists r, i, si. split; [exact Hr'|]. split; [auto|]. split; [exact Ai|]. split; [auto|]. split.
  { intro q. rewrite <- Eo, R1. apply Si. }
  split; [rewrite <- Eo; exact R2|].
  intros e He Lt. assert (Hin : In e (pre ++ [b]) \/ In e suf) by (rewrite E in He; apply in_app_iff in He as [He|[<-|He]]; [left; apply in_app_iff; auto|left; apply in_app_iff; cbn; auto|auto]).
  destruct Hin as [Hin|Hin].
  - rewrite <- (Tm e He). apply R5; [|rewrite (Tm e He); exact Lt]. change [ask_seen b] with (map ask_seen [b]). rewrite <- map_app. apply in_map. exact Hin.
  - exfalso. pose proof (asks_increasing W c s0 k s p St D A) as SS. rewrite E, map_app in SS. apply SS_app_r in SS. cbn in SS. inversion SS as [|x l _ F]; subst.
    rewrite Forall_forall in F. specialize (F (ask_t e) (in_map _ _ _ Hin)). apply (Qclt_not_le _ _ (Qclt_trans _ _ _ F Lt) R4).
Qed.

Lemma fov_used W P Z_ shapes (g : geo (w_X W) (w_F W) P Z_) emb : fov_sensor W shapes g emb -> forall sc p fs f os, watches sc p (emb fov_new) fs f os -> exists st, f = emb st /\ used_with g (shapes sc) st.
Proof.
  intros FS sc p fs f os H. induction H as [|fs f os full f' o H IH C]; [eexists; split; [reflexivity|constructor]|].
  destruct IH as (d & -> & Fd). rewrite FS in C. destruct (fov_sense g d _ full p) as [[d' r]|] eqn:E; [|discriminate]. injection C as <- <-.
  exists d'. split; [reflexivity|]. eapply uw_sense; [exact Fd|exact E].
Qed.

Lemma fov_request W (c : ctx W) P Z_ shapes (g : geo (w_X W) (w_F W) P Z_) emb s0 k s p b : fov_sensor W shapes g emb -> started c s0 -> 0 < dt (g_param (c_cfg c)) -> after s0 k s ->
  In p (akeys (c_models c)) -> get_sensor c p = Ok (emb fov_new) -> In b (asks s p) ->
  exists st st', used_with g (shapes (g_scen (c_cfg c))) st /\ fov_sense g st (shapes (g_scen (c_cfg c))) (ask_seen b) p = Ok (st', ask_given b).
Proof.
  intros FS St D A Hp G Hb.
  destruct (J_holds c s0 k s p St D A Hp) as (a1 & _ & [_ _ J3 _]). destruct (J3 _ G) as (f & _ & Wt). apply in_split in Hb as (pre & suf & E).
  destruct (watches_prefix _ _ _ _ _ _ Wt (S (length pre))) as (h & Wp); [rewrite map_length, E, app_length; cbn; lia|].
  rewrite E in Wp. rewrite !firstn_map in Wp. replace (firstn (S (length pre)) (pre ++ b :: suf)) with (pre ++ [b]) in Wp
    by (rewrite firstn_app, firstn_all2 by lia; replace (S (length pre) - length pre)%nat with 1%nat by lia; reflexivity).
  rewrite !map_app in Wp. cbn [map] in Wp.
  inversion Wp as [E0|fs f1 os full f2 o Wq Sn E1 E2 E3]; [destruct (map ask_seen pre); discriminate|].
  apply app_inj_tail in E1 as [-> ->]. apply app_inj_tail in E3 as [-> ->]. clear Wp.
  destruct (fov_used W P Z_ shapes g emb FS _ _ _ _ _ Wq) as (d & -> & Fd).
  rewrite FS in Sn. destruct (fov_sense g d _ _ p) as [[d' out]|] eqn:Ds; [|discriminate]. injection Sn as <- <-. eauto.
Qed.

(** With a FovObsFilter a player is always shown itself, at the present time, and whoever else it is shown is still in the simulation and in the state shown at that time. *)
Lemma C134_fov_truth_pf : forall W (c : ctx W) P Z_ shapes (g : geo (w_X W) (w_F W) P Z_) emb s0 k s p b, fov_sensor W shapes g emb -> started c s0 -> 0 < dt (g_param (c_cfg c)) -> after s0 k s ->
  In p (akeys (c_models c)) -> get_sensor c p = Ok (emb fov_new) -> In b (asks s p) ->
  exists i si, after s0 i si /\ active si p /\ time si = ask_t b /\ o_time (ask_given b) = ask_t b /\
    (exists m, model_of si p = Some m /\ sees (ask_given b) p = Some (get_state W m, footprint W m)) /\
    forall q x occ, sees (ask_given b) q = Some (x, occ) -> active si q /\ state_of si q = Some x.
Proof.
  intros W c P Z_ shapes g emb s0 k s p b FS St D A Hp G Hb. destruct (fov_request W c P Z_ shapes g emb s0 k s p b FS St D A Hp G Hb) as (st & st' & Us & Sn).
  destruct (request_facts W c s0 k s p b St D A Hb) as (i & si & _ & Ai & Hact & Ti & (T & K & V) & Tb & Pr).
  destruct (C31_only_removes_pf _ _ _ _ g st _ _ p st' _ Pr Sn) as (R1 & R2 & R3 & _ & R5).
  exists i, si. split; [exact Ai|]. split; [exact Hact|]. split; [auto|]. split; [congruence|]. split.
  - unfold sees in R2, R3 |- *. rewrite R2. rewrite V in *. assert (Ha : activeb si p = true) by (apply dmem_spec; exact Hact). rewrite Ha in *.
    destruct (model_of si p) as [m|]; [|destruct (R3 eq_refl)]. exists m. auto.
  - intros q x occ Hq. destruct (R5 q x occ Hq) as (occ0 & H & _). unfold sees in H. rewrite V in H. destruct (activeb si q) eqn:Ha; [|discriminate].
    split; [apply dmem_spec; exact Ha|]. unfold state_of. destruct (model_of si q) as [m|]; [|discriminate]. cbn in *. congruence.
Qed.

(** And it is shown exactly the players whose footprints meet the visible region computed, at that request, from its own pose, the obstacles of the scenario and the other players' footprints. *)
Lemma C134_fov_hides_pf : forall W (c : ctx W) P Z_ shapes (g : geo (w_X W) (w_F W) P Z_) emb s0 k s p b, fov_sensor W shapes g emb -> started c s0 -> 0 < dt (g_param (c_cfg c)) -> after s0 k s ->
  In p (akeys (c_models c)) -> get_sensor c p = Ok (emb fov_new) -> In b (asks s p) -> (forall x y, exists t, PerceptionModel.hits g x y = Ok t) ->
  exists i si m z polys region, after s0 i si /\ time si = ask_t b /\ model_of si p = Some m /\ pose_of g (get_state W m) = Ok z /\
    polys_of g (shapes (g_scen (c_cfg c)) ++ map (fun e => snd (snd e)) (filter (fun e => negb (Nat.eqb (fst e) p)) (o_players (ask_seen b)))) polys /\
    fov g z polys = Ok region /\
    forall q n, q <> p -> active si q -> model_of si q = Some n ->
      (PerceptionModel.hits g region (footprint W n) = Ok true -> sees (ask_given b) q = Some (get_state W n, footprint W n)) /\
      (PerceptionModel.hits g region (footprint W n) = Ok false -> sees (ask_given b) q = None).
Proof.
  intros W c P Z_ shapes g emb s0 k s p b FS St D A Hp G Hb Ht. destruct (fov_request W c P Z_ shapes g emb s0 k s p b FS St D A Hp G Hb) as (st & st' & Us & Sn).
  destruct (request_facts W c s0 k s p b St D A Hb) as (i & si & _ & Ai & Hact & Ti & (T & K & V) & Tb & Pr).
  destruct (C31_shows_exactly_the_visible_pf _ _ _ _ g st _ _ p st' _ Ht Us Pr Sn) as (me & z & polys & region & R1 & R2 & R3 & R4 & R5).
  assert (Vp : forall q, active si q -> sees (ask_seen b) q = option_map (fun m => (get_state W m, footprint W m)) (model_of si q)).
  { intros q Hq. unfold sees. rewrite V. apply dmem_spec in Hq. unfold activeb. rewrite Hq. reflexivity. }
  rewrite (Vp p Hact) in R1. destruct (model_of si p) as [m|] eqn:Em; [|discriminate]. injection R1 as <-. cbn [fst] in R2.
  exists i, si, m, z, polys, region. repeat (split; [solve [auto]|]). intros q n Nq Hq Hn. apply R5; [exact Nq|]. rewrite (Vp q Hq), Hn. reflexivity.
Qed.

(** A world with two kinds of agents and two kinds of sensors of the package: player 0 is a lane follower with delayed observations, player 1, oncoming at 5 m, plays a plan and has a field of view to the right, where player 2 is; player 0 is out of its sight. *)
Definition street_geo : geo vstate (Qc * Qc) (Qc * Qc) Qc :=
  mkGeo (fun x => Ok (vs_x x)) (fun x => Ok (vs_x x, vs_y x)) (fun f => Ok [f]) (fun z l => Ok (line_fov z l)) (fun a b => Ok (qleb (fst a) (snd b) && qleb (fst b) (snd a))) (fun _ => true) (fun f => Ok f).

Definition street : world := {|
  w_X := vstate; w_U := vcmd * lights; w_M := vstate; w_A := lf_agent (PP := nat) (Lane := unit) + seq (vcmd * lights); w_G := unit;
  w_S := delayed (X := vstate) (F := Qc * Qc) unit + fov_filter (P := Qc * Qc) (Z_ := Qc); w_F := Qc * Qc; w_O := Qc * Qc;
  w_E := unit; w_I := unit; w_D := unit; w_scen := list (Qc * Qc);
  get_state := fun m => m; footprint := fun m => (vs_x m, vs_x m + 1); intersects := fun _ _ => false; is_dyn := fun _ => false;
  model_step := fun m u d => Ok (mkVS (vs_x m) (vs_y m) (vs_psi m) (vs_vx m + vc_acc (fst u) * d) (vs_delta m));
  agent_init := fun a q _ _ _ _ => Ok (match a with inl b => inl (lf_init b q) | inr l => inr l end);
  agent_cmds := fun a o => match a with
    | inl b => match lf_get_commands ex_env b o with Ok (b', u) => Ok (inl b', u) | Err e => Err e end
    | inr l => match np_get_commands l o with Ok u => Ok (inr l, u) | Err e => Err e end end;
  agent_extra := fun a => Ok (a, None);
  goal_done := fun _ _ _ => Ok false;
  sense := fun f sc o q => match f with
    | inl d => match delayed_sense id_sense (qf 1 2) d sc o q with Ok (d', r) => Ok (inl d', r) | Err e => Err e end
    | inr v => match fov_sense street_geo v sc o q with Ok (v', r) => Ok (inr v', r) | Err e => Err e end end;
  id_filter := inl (mkDelayed tt []); cpu_time := fun _ _ => tt;
  env_query := fun _ _ => []; obstacles := fun sc => sc;
  resolve := fun _ p q t a b => ((a, b), Ok None); resolve_env := fun p _ t m => (m, Ok None) |}.

Definition street_agent : lf_agent (PP := nat) (Lane := unit) := match lf_new ex_env ex_order tt vp_car tt None None with Ok a => a | Err _ => mkLFA tt (pid_new (mkPP 0 0 0 (0, 0) (0, 0) (0, 0))) sb_default (pid_new (mkPP 0 0 0 (0, 0) (0, 0) (0, 0))) 0%nat None 0 None false (mkSeq [] [] true) end.

Definition street_plan : seq (vcmd * lights) := mkSeq [0; 1] [(mkVC 1 0, NoLights); (mkVC (qz 2) 0, Hazard)] true.

Definition street_ctx : ctx street := @mkCtx street
  (@mkConfig street [] (mkParam (qf 1 2) (qf 1 2) (qz 3) (qz 10)) [] true 0%nat)
  [(0%nat, ex_me); (1%nat, ex_front); (2%nat, mkVS (qz 7) 0 0 0 0)]
  [(0%nat, inl street_agent); (1%nat, inr street_plan); (2%nat, inr street_plan)]
  [(1%nat, inr fov_new)] [] 0 false [] None.

Lemma street_kinds : lane_following street ex_env inl (fun u => u) /\ open_loop street inr /\ delay_sensor street (fun sc => sc) (qf 1 2) inl /\ fov_sensor street (fun sc => sc) street_geo inr.
Proof.
  split; [|split; [|split]].
  - split; [reflexivity|]. split; [reflexivity|]. intros a b x [= <- <-]. reflexivity.
  - split; [reflexivity|]. split; reflexivity.
  - intros d sc o q. reflexivity.
  - intros f sc o q. reflexivity.
Qed.

Definition street_start : st street := match init_run street_ctx new_simulator with Ok s => s | Err _ => mkSt street_ctx new_simulator [] end.

Lemma street_started : started street_ctx street_start.
Proof.
  split.
  - split; [vm_compute; reflexivity|]. repeat split; cbn; repeat constructor; cbn; intuition congruence.
  - exists new_simulator. split; [reflexivity|]. unfold street_start.
    assert (H : match init_run street_ctx new_simulator with Ok _ => true | Err _ => false end = true) by (vm_compute; reflexivity).
    destruct (init_run street_ctx new_simulator); [reflexivity|discriminate].
Qed.

Lemma street_after : after street_start 3 (nth_st street_start 3).
Proof. apply nth_st_after. vm_compute. reflexivity. Qed.

Lemma street_agent_new : lf_new ex_env ex_order tt vp_car tt None None = Ok street_agent.
Proof.
  unfold street_agent. assert (H : match lf_new ex_env ex_order tt vp_car tt None None with Ok _ => true | Err _ => false end = true) by (vm_compute; reflexivity).
  destruct (lf_new ex_env ex_order tt vp_car tt None None); [reflexivity|discriminate].
Qed.

Lemma street_obtainable : obtainable street_plan.
Proof. apply (ob_new _ true [0; 1] [(mkVC 1 0, NoLights); (mkVC (qz 2) 0, Hazard)]). vm_compute. reflexivity. Qed.
