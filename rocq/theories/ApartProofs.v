(** A run with a player nobody notices goes in step with the run without it. *)
From Coq Require Import QArith Qcanon ZArith List Bool Arith Lia.
From Verif Require Import Base Num SeqModel SeqProofs SimulatorModel SimulatorSpec DictLemmas SimulatorProofs SimulatorProofs2 SimulatorProofs3 SimulatorProofs4 SimulatorProofs5 SimulatorProofs6 SimulatorProofs7 SimulatorProofs8 ReplayProofs CauseSpec CauseProofs ApartSpec.
Import ListNotations.
Open Scope Qc_scope.

Section Dicts.
Context {V : Type} (e : player).
Implicit Types d : list (player * V).
Definition ne (q : player) : bool := negb (Nat.eqb q e).
Lemma ne_true q : ne q = true <-> q <> e.
Proof. unfold ne. rewrite negb_true_iff. apply Nat.eqb_neq. Qed.
Lemma ne_false q : ne q = false <-> q = e.
Proof. unfold ne. rewrite negb_false_iff. apply Nat.eqb_eq. Qed.
Lemma dget_nil q : dget (@nil (player * V)) q = None. Proof. reflexivity. Qed.
Lemma dget_without d q : q <> e -> dget (without e d) q = dget d q.
Proof.
  intro N. induction d as [|[k v] d IH]; [reflexivity|]. unfold without in *. cbn [filter fst]. destruct (Nat.eqb_spec k e) as [->|Nk]; cbn [negb].
  - rewrite IH, dget_cons. destruct (Nat.eqb_spec e q); [congruence|reflexivity].
  - rewrite !dget_cons, IH. reflexivity.
Qed.
Lemma dget_without_e d : dget (without e d) e = None.
Proof.
  induction d as [|[k v] d IH]; [reflexivity|]. unfold without in *. cbn [filter fst]. destruct (Nat.eqb_spec k e) as [->|Nk]; cbn [negb]; [exact IH|].
  rewrite dget_cons. destruct (Nat.eqb_spec k e); [congruence|exact IH].
Qed.
Lemma keys_without d : akeys (without e d) = filter ne (akeys d).
Proof. unfold akeys, without. induction d as [|[k v] d IH]; [reflexivity|]. cbn [filter map fst]. fold (ne k). destruct (ne k); cbn [map fst]; rewrite ?IH; reflexivity. Qed.
Lemma nd_filter {B} (f : B -> bool) (l : list B) : NoDup l -> NoDup (filter f l).
Proof. apply NoDup_filter. Qed.
End Dicts.

Lemma combos_filter (e : player) (l : list player) : filter (fun pq => ne e (fst pq) && ne e (snd pq)) (combinations2 l) = combinations2 (filter (ne e) l).
Proof.
  induction l as [|x l IH]; [reflexivity|]. cbn [combinations2 filter]. rewrite filter_app, IH.
  assert (M : filter (fun pq => ne e (fst pq) && ne e (snd pq)) (map (pair x) l) = if ne e x then map (pair x) (filter (ne e) l) else []).
  { clear. induction l as [|y l IH]; cbn [map filter fst snd]; [destruct (ne e x); reflexivity|]. rewrite IH. destruct (ne e x), (ne e y); reflexivity. }
  rewrite M. destruct (ne e x); reflexivity.
Qed.

Ltac inv_match H :=
  match type of H with
  | context [match ?x with _ => _ end] => destruct x eqn:?; try discriminate H
  end.

Section Apart.
Context {W : world} (e : player) (Seen : player -> simobs (w_X W) (w_F W) -> Prop) (R : player -> w_S W * w_A W -> w_S W * w_A W -> Prop) (sc : w_scen W).
Implicit Types (s z : st W) (p q : player).
Hypothesis HR : forall p f a h b o f' g a1 u a2 x, p <> e -> R p (f, a) (h, b) -> Seen p o ->
    sense W f sc o p = Ok (f', g) -> agent_cmds W a g = Ok (a1, u) -> agent_extra W a1 = Ok (a2, x) ->
    exists h' g' b1 b2, sense W h sc (obs_without e o) p = Ok (h', g') /\ agent_cmds W b g' = Ok (b1, u) /\ agent_extra W b1 = Ok (b2, x) /\ R p (f', a2) (h', b2).

Definition fine (l : list (event W)) : Prop :=
  (forall i t d out, ~ In (EEnv e i t d out) l) /\
  (forall p q t out, In (EPair p q t out) l -> p <> e /\ q <> e) /\
  (forall p t full o u, In (EAsk p t full o u) l -> p <> e -> Seen p full).
Lemma fine_incl l l' : incl l l' -> fine l' -> fine l.
Proof. intros I (H1 & H2 & H3). split; [|split]; eauto. intros i t d out H. exact (H1 _ _ _ _ (I _ H)). Qed.

Record core (K C : player -> Prop) (O : Prop) s z : Prop := mkCore {
  ap_scen : g_scen (c_cfg (cx s)) = sc;
  ap_scen' : g_scen (c_cfg (cx z)) = sc;
  ap_param : g_param (c_cfg (cx z)) = g_param (c_cfg (cx s));
  ap_miss : g_missions (c_cfg (cx z)) = without e (g_missions (c_cfg (cx s)));
  ap_models : forall q, q <> e -> dget (c_models (cx z)) q = dget (c_models (cx s)) q;
  ap_keys : akeys (c_players (cx z)) = filter (ne e) (akeys (c_players (cx s)));
  ap_nd : NoDup (akeys (c_players (cx s)));
  ap_time : c_time (cx z) = c_time (cx s);
  ap_reports : c_reports (cx z) = c_reports (cx s);
  ap_first : c_first (cx z) = c_first (cx s);
  ap_last : s_last (sm z) = s_last (sm s);
  ap_obs : O -> s_obs (sm z) = obs_without e (s_obs (sm s));
  ap_cmds : forall q, C q -> q <> e -> dget (s_cmds (sm z)) q = dget (s_cmds (sm s)) q;
  ap_logs : forall q, K q -> q <> e -> logger_of z q = logger_of s q;
  ap_act : forall q, active s q -> K q
}.
Definition bis (cs cz : ctx W) : Prop :=
  forall q a, q <> e -> dget (c_players cs) q = Some a -> exists b, dget (c_players cz) q = Some b /\
     forall f, get_sensor cs q = Ok f -> exists h, get_sensor cz q = Ok h /\ R q (f, a) (h, b).
Definition apart (K C : player -> Prop) (O : Prop) s z : Prop := core K C O s z /\ bis (cx s) (cx z).

Lemma bis_same (c c' d d' : ctx W) : c_players c' = c_players c -> c_sensors c' = c_sensors c -> c_cfg c' = c_cfg c ->
  c_players d' = c_players d -> c_sensors d' = c_sensors d -> c_cfg d' = c_cfg d -> bis c d -> bis c' d'.
Proof. intros E1 E2 E3 E4 E5 E6 B. unfold bis, get_sensor in *. rewrite E1, E2, E3, E4, E5, E6. exact B. Qed.

Lemma ap_need K C O s z : core K C O s z -> need_commands z = need_commands s.
Proof. intros []. unfold need_commands, param, time. rewrite ap_last0, ap_param0, ap_time0. reflexivity. Qed.
Lemma core_mono (K C C' : player -> Prop) (O O' : Prop) s z : core K C O s z -> (forall q, q <> e -> C' q -> C q) -> (O' -> O) -> core K C' O' s z.
Proof. intros [] H. constructor; auto. Qed.
Lemma ap_mono (K C C' : player -> Prop) (O O' : Prop) s z : apart K C O s z -> (forall q, q <> e -> C' q -> C q) -> (O' -> O) -> apart K C' O' s z.
Proof. intros [A B] H HO. split; [eapply core_mono; eassumption|exact B]. Qed.

Lemma ap_wl K C O s z p f s1 : core K C O s z -> K p -> p <> e -> with_logger s p f = Ok s1 -> exists z1, with_logger z p f = Ok z1 /\ core K C O s1 z1 /\ cx s1 = cx s /\ cx z1 = cx z.
Proof.
  intros A Kp Np H. apply with_logger_ok in H as (l & l1 & L1 & L2 & ->). pose proof (ap_logs _ _ _ _ _ A p Kp Np) as L. rewrite L1 in L. unfold logger_of in L.
  eexists. split; [unfold with_logger, agetE; rewrite L, L2; reflexivity|]. split; [|split; reflexivity].
  destruct A. constructor; auto. intros q Kq Nq. unfold logger_of in *. cbn [sm upd_sm set_logs s_logs]. rewrite !dget_dset. destruct (Nat.eqb p q); auto.
Qed.

(** The moves of [e] change nothing for the others. *)
Lemma ap_e_frame K C O s z s1 : apart K C O s z -> frame s s1 -> (forall q, q <> e -> view s1 q = view s q) -> apart K C O s1 z.
Proof.
  intros [A B] F V. assert (V1 : forall q, q <> e -> dget (c_models (cx s1)) q = dget (c_models (cx s)) q /\ logger_of s1 q = logger_of s q /\ dget (s_cmds (sm s1)) q = dget (s_cmds (sm s)) q /\ dget (c_players (cx s1)) q = dget (c_players (cx s)) q /\ dget (c_sensors (cx s1)) q = dget (c_sensors (cx s)) q).
  { intros q N. specialize (V q N). unfold view, model_of in V. repeat split; congruence. }
  destruct F. split.
  - destruct A. constructor; rewrite ?f_cfg, ?f_players, ?f_time, ?f_reports, ?f_first, ?f_last, ?f_obs; auto.
    + intros q N. destruct (V1 q N) as [-> _]. auto.
    + intros q Hq N. destruct (V1 q N) as (_ & _ & -> & _). auto.
    + intros q Hq N. destruct (V1 q N) as (_ & -> & _). auto.
    + unfold active in *. rewrite f_players. exact ap_act0.
  - intros q a N. destruct (V1 q N) as (_ & _ & _ & V4 & V5). unfold get_sensor. rewrite V4, V5, f_cfg. apply B, N.
Qed.

Lemma in_filter_ne p (l : list player) : In p (filter (ne e) l) <-> In p l /\ p <> e.
Proof. rewrite filter_In, ne_true. tauto. Qed.

Lemma ask_apart K C s z p t s1 : apart K C True s z -> p <> e -> active s p -> ask s p t = Ok s1 -> fine (ev s1) ->
  exists z1, ask z p t = Ok z1 /\ apart K (fun q => C q \/ q = p) True s1 z1.
Proof.
  intros [A B] Np Ap H P. assert (Kp := ap_act _ _ _ _ _ A p Ap).
  assert (Sn : Seen p (s_obs (sm s))).
  { destruct (ask_ok _ _ _ _ H) as (f & f' & o & a & a' & a'' & u & x & l & _ & _ & _ & _ & _ & _ & _ & _ & _ & _ & _ & E & _). destruct P as (_ & _ & P). apply (P p t (s_obs (sm s)) o u); [rewrite E; left; reflexivity|exact Np]. }
  unfold ask in H.
  destruct (get_sensor (cx s) p) as [f|] eqn:E1; [|discriminate].
  destruct (sense W f _ _ p) as [[f' o]|] eqn:E2; [|discriminate].
  destruct (dgetE (c_players (cx s)) p) as [a|] eqn:E3; [|discriminate]. apply agetE_Ok in E3.
  destruct (agent_cmds W a o) as [[a' u]|] eqn:E4; [|discriminate]. cbv zeta in H.
  match type of H with context [with_logger ?x p (log_command t u)] => set (s2 := x) in H end.
  destruct (with_logger s2 p (log_command t u)) as [s3|] eqn:E5; [|discriminate].
  destruct (with_logger s3 p (log_info t (cpu_time W p t))) as [s4|] eqn:E6; [|discriminate].
  destruct (agent_extra W a') as [[a'' x]|] eqn:E7; [|discriminate].
  destruct (B p a Np E3) as (b & B1 & B2). destruct (B2 f E1) as (h & B3 & B4).
  rewrite (ap_scen _ _ _ _ _ A) in E2.
  destruct (HR p f a h b _ _ _ _ _ _ _ Np B4 Sn E2 E4 E7) as (h' & g' & b1 & b2 & G1 & G2 & G3 & G4).
  unfold ask. rewrite B3, (ap_scen' _ _ _ _ _ A), (ap_obs _ _ _ _ _ A I), G1. unfold agetE. rewrite B1, G2. cbv zeta.
  match goal with |- context [with_logger ?x p (log_command t u)] => set (z2 := x) end.
  assert (Kz : In p (akeys (c_players (cx z)))) by (eapply dget_Some_In; exact B1).
  assert (A2 : core K (fun q => C q \/ q = p) True s2 z2).
  { assert (Ks : In p (akeys (c_players (cx s)))) by exact Ap. clear - A Ks Kz. destruct A. constructor; auto.
    - cbn [z2 s2 cx set_players set_sensors c_players]. rewrite !keys_dset; auto.
    - cbn [s2 cx set_players set_sensors c_players]. apply NoDup_dset. exact ap_nd0.
    - cbn [z2 s2 sm set_cmds s_cmds]. intros q Hq Nq. rewrite !dget_dset. destruct (Nat.eqb_spec p q) as [->|]; [reflexivity|]. destruct Hq as [Hq|Hq]; [apply ap_cmds0; auto|congruence].
    - intros q. unfold active. cbn [z2 s2 cx set_players set_sensors c_players]. rewrite keys_dset by exact Ks. apply ap_act0. }
  destruct (ap_wl _ _ _ _ _ _ _ _ A2 Kp Np E5) as (z3 & W3 & A3 & X3 & Y3). rewrite W3.
  destruct (ap_wl _ _ _ _ _ _ _ _ A3 Kp Np E6) as (z4 & W4 & A4 & X4 & Y4). rewrite W4, G3.
  match type of H with context [upd_cx s4 ?x] => set (s5 := upd_cx s4 x) in H end.
  match goal with |- context [upd_cx z4 ?x] => set (z5 := upd_cx z4 x) end.
  assert (A5 : core K (fun q => C q \/ q = p) True s5 z5).
  { assert (Ks : In p (akeys (c_players (cx s4)))). { rewrite X4, X3. cbn. apply In_keys_dset. auto. }
    assert (Kz4 : In p (akeys (c_players (cx z4)))). { rewrite Y4, Y3. cbn. apply In_keys_dset. auto. }
    clear - A4 Ks Kz4. destruct A4. constructor; auto.
    - cbn [z5 s5 cx upd_cx set_players c_players]. rewrite !keys_dset; auto.
    - cbn [s5 cx upd_cx set_players c_players]. apply NoDup_dset. exact ap_nd0.
    - intros q. unfold active. cbn [z5 s5 cx upd_cx set_players c_players]. rewrite keys_dset by exact Ks. apply ap_act0. }
  assert (B5 : bis (cx s5) (cx z5)).
  { intros q k Nq. unfold get_sensor. cbn [s5 z5 cx upd_cx set_players c_players c_sensors c_cfg]. rewrite X4, X3, Y4, Y3. cbn [s2 z2 cx set_players set_sensors c_players c_sensors c_cfg].
    rewrite !dget_dset. destruct (Nat.eqb_spec p q) as [<-|Nk].
    - intros [= <-]. exists b2. split; [reflexivity|]. intros f0 [= <-]. exists h'. auto.
    - intro Hk. exact (B q k Nq Hk). }
  destruct x as [v|]; [|injection H as <-; exists z5; split; [reflexivity|split; assumption]].
  destruct (ap_wl _ _ _ _ _ _ _ _ A5 Kp Np H) as (z6 & W6 & A6 & X6 & Y6). exists z6. split; [exact W6|]. split; [exact A6|]. rewrite X6, Y6. exact B5.
Qed.

Lemma player_apart K C (O : Prop) t s z p s1 : apart K C O s z -> (need_commands s = true -> O) -> p <> e -> active s p -> (need_commands s = false -> C p) -> update_player t s p = Ok s1 -> fine (ev s1) ->
  exists z1, update_player t z p = Ok z1 /\ apart K (fun q => C q \/ q = p) O s1 z1.
Proof.
  intros [A B] HO Np Ap Hc H P. assert (Kp := ap_act _ _ _ _ _ A p Ap). unfold update_player in *.
  unfold agetE at 1. rewrite (ap_models _ _ _ _ _ A p Np). fold (dgetE (c_models (cx s)) p).
  destruct (dgetE (c_models (cx s)) p) as [m|] eqn:E1; [|discriminate].
  destruct (with_logger s p _) as [s2|] eqn:E2; [|discriminate].
  destruct (ap_wl _ _ _ _ _ _ _ _ A Kp Np E2) as (z2 & W2 & A2 & X2 & Y2). rewrite W2.
  assert (N2 : need_commands s2 = need_commands s) by (apply with_logger_ok in E2 as (? & ? & _ & _ & ->); reflexivity).
  assert (B2 : bis (cx s2) (cx z2)) by (rewrite X2, Y2; exact B).
  assert (Ap2 : active s2 p) by (unfold active; rewrite X2; exact Ap).
  rewrite (ap_need _ _ _ _ _ A2), N2. rewrite N2 in H.
  assert (X : forall s3, (if need_commands s then ask s2 p t else Ok s2) = Ok s3 -> fine (ev s3) ->
    exists z3, (if need_commands s then ask z2 p t else Ok z2) = Ok z3 /\ apart K (fun q => C q \/ q = p) O s3 z3).
  { intros s3 H3 P3. destruct (need_commands s) eqn:Nd.
    - specialize (HO eq_refl). destruct (ask_apart K C s2 z2 p t s3) as (z3 & Z1 & Z2); auto.
      + split; [|exact B2]. eapply core_mono; [exact A2| |]; auto.
      + exists z3. split; [exact Z1|]. eapply ap_mono; [exact Z2| |]; auto.
    - injection H3 as <-. exists z2. split; [reflexivity|]. eapply ap_mono; [split; eassumption| |]; auto. intros q _ [Hq| ->]; auto. }
  destruct (if need_commands s then ask s2 p t else Ok s2) as [s3|] eqn:E3; [|discriminate].
  destruct (dgetE (s_cmds (sm s3)) p) as [u|] eqn:E4; [|discriminate].
  destruct (dgetE (c_models (cx s3)) p) as [m2|] eqn:E5; [|discriminate].
  destruct (model_step W m2 u (dt (param s3))) as [m'|] eqn:E6; [|discriminate]. injection H as <-.
  destruct (X s3 eq_refl) as (z3 & X1 & A3 & B3). { eapply fine_incl; [|exact P]. cbn. apply incl_tl, incl_refl. }
  rewrite X1. unfold agetE in *. rewrite (ap_cmds _ _ _ _ _ A3 p (or_intror eq_refl) Np), (ap_models _ _ _ _ _ A3 p Np).
  destruct (dget (s_cmds (sm s3)) p) as [u'|]; [|discriminate]. injection E4 as ->.
  destruct (dget (c_models (cx s3)) p) as [m2'|]; [|discriminate]. injection E5 as ->.
  unfold param in *. rewrite (ap_param _ _ _ _ _ A3), E6.
  eexists. split; [reflexivity|]. split; [|exact B3]. clear - A3. destruct A3. constructor; auto.
  intros q Nq. cbn [cx set_models c_models]. rewrite !dget_dset. destruct (Nat.eqb p q); auto.
Qed.

Lemma players_apart K (O : Prop) t l : forall C s z s1, apart K C O s z -> (need_commands s = true -> O) -> (forall p, In p l -> active s p) -> (need_commands s = false -> forall p, In p l -> C p) ->
  rfold (update_player t) s l = Ok s1 -> fine (ev s1) ->
  exists z1, rfold (update_player t) z (filter (ne e) l) = Ok z1 /\ apart K (fun q => C q \/ In q l) O s1 z1.
Proof.
  induction l as [|p l IH]; cbn [rfold filter]; intros C s z s1 A HO Ha Hc H P.
  - injection H as <-. exists z. split; [reflexivity|]. eapply ap_mono; [exact A| |auto]. intros q _ [Hq|[]]. exact Hq.
  - destruct (update_player t s p) as [s2|] eqn:E; [|discriminate]. destruct (players_incl _ _ _ _ H) as [Ii _].
    destruct (player_incl _ _ _ _ E) as [_ F].
    assert (Y : exists z2, rfold (update_player t) z (if ne e p then p :: filter (ne e) l else filter (ne e) l) = rfold (update_player t) z2 (filter (ne e) l) /\ apart K (fun q => C q \/ q = p) O s2 z2).
    { destruct (ne e p) eqn:Ne.
      - apply ne_true in Ne. destruct (player_apart _ _ _ _ _ _ _ _ A HO Ne (Ha p (or_introl eq_refl)) (fun N => Hc N p (or_introl eq_refl)) E (fine_incl _ _ Ii P)) as (z2 & E2 & A2).
        exists z2. cbn [rfold]. rewrite E2. auto.
      - apply ne_false in Ne. subst p. exists z. split; [reflexivity|]. apply update_player_ok in E as (F' & _ & Vw).
        eapply ap_mono; [eapply ap_e_frame; eassumption| |auto]. intros q Nq [Hq|Hq]; [exact Hq|congruence]. }
    destruct Y as (z2 & -> & A2).
    destruct (IH _ _ _ s1 A2) as (z1 & E1 & A1); [rewrite (need_frame _ _ F); exact HO| | |exact H|exact P|].
    + intros q Hq. unfold active. rewrite (f_players _ _ F). apply Ha. right. exact Hq.
    + rewrite (need_frame _ _ F). intros N q Hq. left. apply Hc; [exact N|right; exact Hq].
    + exists z1. split; [exact E1|]. eapply ap_mono; [exact A1| |auto]. intros q _ [Hq|[->|Hq]]; auto.
Qed.

(** ** post_update *)
Lemma fold_apart {B} K C O (f : st W -> B -> result (st W)) (keep : B -> bool) l :
  (forall x s s1, f s x = Ok s1 -> incl (ev s) (ev s1)) ->
  (forall x s z s1, keep x = true -> apart K C O s z -> f s x = Ok s1 -> fine (ev s1) -> exists z1, f z x = Ok z1 /\ apart K C O s1 z1) ->
  (forall x s z s1, keep x = false -> apart K C O s z -> f s x = Ok s1 -> fine (ev s1) -> apart K C O s1 z) ->
  forall s z s1, apart K C O s z -> rfold f s l = Ok s1 -> fine (ev s1) -> exists z1, rfold f z (filter keep l) = Ok z1 /\ apart K C O s1 z1.
Proof.
  intros Hi H1 H0. induction l as [|x l IH]; cbn [rfold filter]; intros s z s1 A H P; [injection H as <-; eauto|].
  destruct (f s x) as [s2|] eqn:E; [|discriminate]. pose proof (fine_incl _ _ (fold_incl f l Hi _ _ H) P) as P2.
  destruct (keep x) eqn:Kx.
  - destruct (H1 x s z s2 Kx A E P2) as (z2 & E2 & A2). cbn [rfold]. rewrite E2. exact (IH _ _ _ A2 H P).
  - exact (IH _ _ _ (H0 x s z s2 Kx A E P2) H P).
Qed.

Lemma dmem_ne K C O s z q : core K C O s z -> q <> e -> dmem (c_players (cx z)) q = dmem (c_players (cx s)) q.
Proof.
  intros A N. destruct (dmem (c_players (cx s)) q) eqn:E; [apply dmem_spec in E; apply dmem_spec|apply dmem_false in E; apply dmem_false]; rewrite (ap_keys _ _ _ _ _ A), in_filter_ne; tauto.
Qed.

Lemma keys_ddel_filter {V} (d : list (player * V)) p : NoDup (akeys d) -> akeys (ddel d p) = filter (fun q => negb (Nat.eqb q p)) (akeys d).
Proof.
  induction d as [|[k v] d IH]; intro N; [reflexivity|]. unfold adel; fold (adel (V := V) Nat.eqb). unfold akeys in *. cbn [map fst filter] in *. inversion N as [|? ? N1 N2]; subst.
  destruct (Nat.eqb_spec k p) as [->|Nk]; cbn [negb map fst].
  - symmetry. clear - N1. induction (map fst d) as [|x r IH]; [reflexivity|]. cbn [filter]. destruct (Nat.eqb_spec x p) as [->|]; cbn [negb]; [exfalso; apply N1; left; reflexivity|]. rewrite IH; [reflexivity|]. intro. apply N1. right. assumption.
  - f_equal. apply IH. exact N2.
Qed.
Lemma filter_comm {B} (f g : B -> bool) l : filter f (filter g l) = filter g (filter f l).
Proof. induction l as [|x l IH]; [reflexivity|]. cbn. destruct (f x) eqn:F, (g x) eqn:G; cbn; rewrite ?F, ?G, ?IH; reflexivity. Qed.

Lemma remove_apart K C O pm s z s1 : ne e (fst pm) = true -> apart K C O s z -> remove_finished1 s pm = Ok s1 -> exists z1, remove_finished1 z pm = Ok z1 /\ apart K C O s1 z1.
Proof.
  destruct pm as [p g]. cbn [fst]. rewrite ne_true. intros Np [A B] H. unfold remove_finished1 in *. rewrite (dmem_ne _ _ _ _ _ p A Np).
  destruct (dmem (c_players (cx s)) p) eqn:Ea; [|injection H as <-; eexists; split; [reflexivity|split; assumption]]. apply dmem_spec in Ea.
  unfold agetE in *. rewrite (ap_models _ _ _ _ _ A p Np). destruct (dget (c_models (cx s)) p) as [md|]; [|discriminate]. cbv zeta in *.
  unfold time in *. rewrite (ap_time _ _ _ _ _ A). destruct (goal_done W g (get_state W md) (c_time (cx s))) as [[]|]; [|injection H as <-; eexists; split; [reflexivity|split; assumption]|discriminate].
  destruct (with_logger s p _) as [s2|] eqn:E2; [|discriminate]. injection H as <-.
  destruct (ap_wl _ _ _ _ _ _ _ _ A (ap_act _ _ _ _ _ A p Ea) Np E2) as (z2 & W2 & A2 & X2 & Y2). rewrite W2.
  eexists. split; [reflexivity|]. split.
  - assert (Nz : NoDup (akeys (c_players (cx z2)))) by (rewrite (ap_keys _ _ _ _ _ A2); apply NoDup_filter; apply (ap_nd _ _ _ _ _ A2)).
    destruct A2. constructor; auto; cbn [cx set_players c_players].
    + rewrite !keys_ddel_filter by assumption. rewrite ap_keys0. apply filter_comm.
    + apply NoDup_ddel. exact ap_nd0.
    + unfold active. cbn [cx set_players c_players]. intros q Hq. apply ap_act0. eapply In_keys_ddel_sub. exact Hq.
  - cbn [cx]. rewrite X2, Y2. intros q a Nq. cbn [set_players c_players]. unfold get_sensor. cbn [set_players c_sensors c_cfg].
    destruct (Nat.eq_dec p q) as [<-|Npq]; [rewrite dget_ddel_same by apply (ap_nd _ _ _ _ _ A); discriminate|].
    rewrite !dget_ddel_other by exact Npq. intro Ha. exact (B q a Nq Ha).
Qed.

Lemma remove_e K C O pm s z s1 : ne e (fst pm) = false -> apart K C O s z -> remove_finished1 s pm = Ok s1 -> apart K C O s1 z.
Proof.
  destruct pm as [p g]. cbn [fst]. rewrite ne_false. intros -> [A B] H. unfold remove_finished1 in *.
  destruct (dmem (c_players (cx s)) e) eqn:Ea; [|injection H as <-; split; assumption].
  destruct (dgetE (c_models (cx s)) e) as [md|]; [|discriminate]. cbv zeta in *.
  destruct (goal_done W g (get_state W md) (time s)) as [[]|]; [|injection H as <-; split; assumption|discriminate].
  destruct (with_logger s e _) as [s2|] eqn:E2; [|discriminate]. injection H as <-. apply with_logger_ok in E2 as (l & l1 & _ & _ & ->).
  split.
  - destruct A. constructor; auto; cbn [cx set_players c_players upd_sm].
    + rewrite keys_ddel_filter by assumption. rewrite ap_keys0. symmetry. clear. fold (ne e). induction (akeys (c_players (cx s))) as [|x l IH]; [reflexivity|]. cbn [filter]. destruct (ne e x) eqn:E; cbn [filter]; rewrite ?E, ?IH; reflexivity.
    + apply NoDup_ddel. exact ap_nd0.
    + intros q Kq Nq. unfold logger_of in *. cbn [sm upd_sm set_logs s_logs]. rewrite dget_dset_other by congruence. apply ap_logs0; assumption.
    + unfold active. cbn [cx set_players c_players]. intros q Hq. apply ap_act0. eapply In_keys_ddel_sub. exact Hq.
  - cbn [cx upd_sm]. intros q a Nq. cbn [set_players c_players]. unfold get_sensor. cbn [set_players c_sensors c_cfg].
    rewrite dget_ddel_other by congruence. intro Ha. exact (B q a Nq Ha).
Qed.

Lemma env1_apart K C O p x s z s1 : p <> e -> apart K C O s z -> check_env1 p s x = Ok s1 -> exists z1, check_env1 p z x = Ok z1 /\ apart K C O s1 z1.
Proof.
  intros Np [A B] H. unfold check_env1, time, agetE in *. rewrite (ap_models _ _ _ _ _ A p Np), (ap_scen' _ _ _ _ _ A), (ap_time _ _ _ _ _ A). rewrite (ap_scen _ _ _ _ _ A) in H.
  destruct (dget (c_models (cx s)) p) as [m|]; [|discriminate]. destruct (item (obstacles W sc) x) as [o|]; [|discriminate].
  destruct (resolve_env W p o (c_time (cx s)) m) as [m' out]. cbv zeta in *.
  assert (M : forall q, q <> e -> dget (dset (c_models (cx z)) p m') q = dget (dset (c_models (cx s)) p m') q).
  { intros q Nq. rewrite !dget_dset. destruct (Nat.eqb p q); [reflexivity|apply (ap_models _ _ _ _ _ A), Nq]. }
  pose proof B as B'. destruct A.
  assert (Y : forall r f r' f', r' = r -> f' = f -> forall l l', apart K C O (mkSt (set_reports (set_models (cx s) (dset (c_models (cx s)) p m')) r f) (sm s) l) (mkSt (set_reports (set_models (cx z) (dset (c_models (cx z)) p m')) r' f') (sm z) l')).
  { intros r f r' f' -> -> l l'. split; [|exact B]. constructor; auto. }
  assert (Y0 : forall l l', apart K C O (mkSt (set_models (cx s) (dset (c_models (cx s)) p m')) (sm s) l) (mkSt (set_models (cx z) (dset (c_models (cx z)) p m')) (sm z) l')).
  { intros l l'. split; [|exact B]. constructor; auto. }
  destruct out as [[r|]|k].
  - destruct (is_dyn W m'); injection H as <-; (eexists; split; [reflexivity|]); [apply Y0|]. apply Y; cbn; rewrite ?ap_reports0, ?ap_first0; reflexivity.
  - injection H as <-. eexists; split; [reflexivity|]. apply Y0.
  - destruct k; try discriminate. destruct (is_dyn W m'); injection H as <-; (eexists; split; [reflexivity|]); [apply Y0|]. apply Y; cbn; rewrite ?ap_reports0, ?ap_first0; reflexivity.
Qed.

Lemma env1_event p x s s1 : check_env1 p s x = Ok s1 -> exists t d out, In (EEnv p x t d out) (ev s1).
Proof. unfold check_env1. intro H. repeat (inv_match H); injection H as <-; cbn; eauto 10. Qed.

Lemma env_player_incl p s s1 : check_env_player s p = Ok s1 -> incl (ev s) (ev s1).
Proof. unfold check_env_player. intro H. inv_match H. apply (fold_incl _ _ (env1_incl p)) in H. exact H. Qed.

Lemma env_apart K C O p s z s1 : ne e p = true -> apart K C O s z -> check_env_player s p = Ok s1 -> fine (ev s1) -> exists z1, check_env_player z p = Ok z1 /\ apart K C O s1 z1.
Proof.
  rewrite ne_true. intros Np A H P. unfold check_env_player, agetE in *. rewrite (ap_models _ _ _ _ _ (proj1 A) p Np), (ap_scen' _ _ _ _ _ (proj1 A)). rewrite (ap_scen _ _ _ _ _ (proj1 A)) in H.
  destruct (dget (c_models (cx s)) p) as [m|]; [|discriminate].
  destruct (fold_apart K C O (check_env1 p) (fun _ => true) (env_query W sc (footprint W m)) (env1_incl p)) with (s := s) (z := z) (s1 := s1) as (z1 & Z1 & Z2); auto.
  - intros x s' z' s1' _ A' E' _. exact (env1_apart _ _ _ _ _ _ _ _ Np A' E').
  - discriminate.
  - exists z1. split; [|exact Z2]. rewrite <- Z1. f_equal. clear. induction (env_query W sc (footprint W m)) as [|x l IH]; cbn; congruence.
Qed.

Lemma env_e K C O p s z s1 : ne e p = false -> apart K C O s z -> check_env_player s p = Ok s1 -> fine (ev s1) -> apart K C O s1 z.
Proof.
  rewrite ne_false. intros -> A H P. unfold check_env_player in H. destruct (dgetE (c_models (cx s)) e) as [m|]; [|discriminate].
  destruct (env_query W _ _) as [|x l]; [injection H as <-; exact A|]. cbn [rfold] in H. destruct (check_env1 e s x) as [s2|] eqn:E; [|discriminate].
  apply env1_event in E as (t & d & out & E). exfalso. apply (proj1 P x t d out). apply (fold_incl _ _ (env1_incl e) _ _ H). exact E.
Qed.

Lemma pair_apart K C O x s z s1 : (ne e (fst x) && ne e (snd x))%bool = true -> apart K C O s z -> check_pair s x = Ok s1 -> exists z1, check_pair z x = Ok z1 /\ apart K C O s1 z1.
Proof.
  destruct x as [p q]. cbn [fst snd]. rewrite andb_true_iff, !ne_true. intros [Np Nq] [A B] H. unfold check_pair, time, agetE in *.
  rewrite (ap_models _ _ _ _ _ A p Np), (ap_models _ _ _ _ _ A q Nq), (ap_scen' _ _ _ _ _ A), (ap_time _ _ _ _ _ A). rewrite (ap_scen _ _ _ _ _ A) in H.
  destruct (dget (c_models (cx s)) p) as [a|]; [|discriminate]. destruct (dget (c_models (cx s)) q) as [b|]; [|discriminate].
  destruct (intersects W (footprint W a) (footprint W b)); [|injection H as <-; eexists; split; [reflexivity|split; assumption]].
  destruct (resolve W sc p q (c_time (cx s)) a b) as [[a' b'] out]. cbv zeta in *.
  assert (M : forall k, k <> e -> dget (dset (dset (c_models (cx z)) p a') q b') k = dget (dset (dset (c_models (cx s)) p a') q b') k).
  { intros k Nk. rewrite !dget_dset. destruct (Nat.eqb q k); [reflexivity|]. destruct (Nat.eqb p k); [reflexivity|apply (ap_models _ _ _ _ _ A), Nk]. }
  destruct A.
  assert (Y : forall r f r' f', r' = r -> f' = f -> forall l l', apart K C O (mkSt (set_reports (set_models (cx s) (dset (dset (c_models (cx s)) p a') q b')) r f) (sm s) l) (mkSt (set_reports (set_models (cx z) (dset (dset (c_models (cx z)) p a') q b')) r' f') (sm z) l')).
  { intros r f r' f' -> -> l l'. split; [|exact B]. constructor; auto. }
  assert (Y0 : forall l l', apart K C O (mkSt (set_models (cx s) (dset (dset (c_models (cx s)) p a') q b')) (sm s) l) (mkSt (set_models (cx z) (dset (dset (c_models (cx z)) p a') q b')) (sm z) l')).
  { intros l l'. split; [|exact B]. constructor; auto. }
  destruct out as [[r|]|k].
  - injection H as <-. eexists; split; [reflexivity|]. apply Y; cbn; rewrite ?ap_reports0, ?ap_first0; reflexivity.
  - injection H as <-. eexists; split; [reflexivity|]. apply Y0.
  - destruct k; try discriminate. injection H as <-. eexists; split; [reflexivity|]. apply Y; cbn; rewrite ?ap_reports0, ?ap_first0; reflexivity.
Qed.

Lemma pair_e K C O x s z s1 : (ne e (fst x) && ne e (snd x))%bool = false -> apart K C O s z -> check_pair s x = Ok s1 -> fine (ev s1) -> apart K C O s1 z.
Proof.
  destruct x as [p q]. cbn [fst snd]. intros Ne A H P. unfold check_pair in H.
  assert (Ex : forall t out, ~ In (EPair p q t out) (ev s1)).
  { intros t out Hin. apply P in Hin as [X1 X2]. apply ne_true in X1, X2. rewrite X1, X2 in Ne. discriminate. }
  destruct (dgetE (c_models (cx s)) p) as [a|]; [|discriminate]. destruct (dgetE (c_models (cx s)) q) as [b|]; [|discriminate].
  destruct (intersects W (footprint W a) (footprint W b)); [|injection H as <-; exact A]. exfalso.
  destruct (resolve W _ p q (time s) a b) as [[a' b'] out]. cbv zeta in H. apply (Ex (time s) out).
  destruct out as [[r|]|k]; [..|destruct k; try discriminate]; injection H as <-; left; reflexivity.
Qed.

(** ** Termination *)
Definition lasting (ms : list (player * w_G W)) : Prop := In e (akeys ms) -> exists q, q <> e /\ In q (akeys ms).

Lemma term_s K C O s z : core K C O s z -> lasting (g_missions (c_cfg (cx s))) -> termination (cx s) = true -> termination (cx z) = true.
Proof.
  intros A L T. pose proof (fun q => dmem_ne K C O s z q A) as Dm. destruct A. unfold termination in *. rewrite ap_param0, ap_time0, ap_first0.
  set (x := (qltb _ _ || past_collision _ _ _)%bool) in *. destruct x; [reflexivity|]. cbn [orb] in *.
  assert (Em : c_players (cx s) = [] -> c_players (cx z) = []).
  { intro E. rewrite E in ap_keys0. cbn in ap_keys0. unfold akeys in ap_keys0. destruct (c_players (cx z)); [reflexivity|discriminate]. }
  destruct (c_players (cx z)) as [|pz lz] eqn:Ez; [reflexivity|]. cbn [negb orb].
  destruct (c_players (cx s)) as [|ps ls] eqn:Es; [discriminate (Em eq_refl)|]. cbn [negb] in T.
  rewrite ap_miss0. destruct (g_missions (c_cfg (cx s))) as [|g0 gs] eqn:Eg; [discriminate|].
  assert (Ne : without e (g0 :: gs) <> []).
  { assert (exists q, q <> e /\ In q (akeys (g0 :: gs))) as (q & Nq & Iq).
    { destruct (in_dec Nat.eq_dec e (akeys (g0 :: gs))) as [I1|I1]; [apply L, I1|]. exists (fst g0). split; [intros <-; apply I1|]; left; reflexivity. }
    intro X. pose proof (keys_without e (g0 :: gs)) as Y. rewrite X in Y. assert (Z : In q (filter (ne e) (akeys (g0 :: gs)))) by (apply in_filter_ne; auto). rewrite <- Y in Z. destruct Z. }
  assert (G : forallb (fun pn => negb (dmem (pz :: lz) pn)) (akeys (without e (g0 :: gs))) = true).
  { apply forallb_forall. intros q Hq. rewrite keys_without, in_filter_ne in Hq. destruct Hq as [Hq Nq]. rewrite forallb_forall in T. specialize (T q Hq).
    rewrite Dm; [exact T|exact Nq]. }
  destruct (without e (g0 :: gs)); [contradiction|exact G].
Qed.

Lemma without_id {V} (d : list (player * V)) : ~ In e (akeys d) -> without e d = d.
Proof.
  induction d as [|[k v] d IH]; intro N; [reflexivity|]. unfold without in *. cbn [filter fst]. unfold akeys in N. cbn in N.
  destruct (Nat.eqb_spec k e) as [->|]; [exfalso; apply N; left; reflexivity|]. cbn [negb]. rewrite IH; [reflexivity|]. intro. apply N. right. assumption.
Qed.

Lemma term_z K C O s z : core K C O s z -> ~ In e (akeys (g_missions (c_cfg (cx s)))) -> (g_missions (c_cfg (cx s)) = [] -> exists q, q <> e /\ active s q) ->
  termination (cx z) = true -> termination (cx s) = true.
Proof.
  intros A Ni L T. pose proof (dmem_ne K C O s z) as Dm. pose proof A as A'. destruct A'. unfold termination in *. rewrite ap_param0, ap_time0, ap_first0 in T.
  set (x := (qltb _ _ || past_collision _ _ _)%bool) in *. destruct x; [reflexivity|]. cbn [orb] in *.
  rewrite ap_miss0, (without_id _ Ni) in T.
  destruct (g_missions (c_cfg (cx s))) as [|g0 gs] eqn:Eg.
  - destruct (L eq_refl) as (q & Nq & Aq). assert (Z : In q (akeys (c_players (cx z)))) by (rewrite ap_keys0; apply in_filter_ne; auto).
    destruct (c_players (cx z)); [destruct Z|]. discriminate.
  - destruct (c_players (cx s)) as [|ps ls] eqn:Es; [reflexivity|]. cbn [negb].
    apply forallb_forall. intros q Hq. assert (Nq : q <> e) by (intros ->; contradiction). apply negb_true_iff. rewrite <- (Dm q A Nq). 
    destruct (c_players (cx z)) as [|pz lz] eqn:Ez; [reflexivity|]. cbn [negb] in T. rewrite forallb_forall in T. apply negb_true_iff. apply T. exact Hq.
Qed.

(** ** What the collision checks leave alone *)
Definition kept s s1 : Prop := sm s1 = sm s /\ c_players (cx s1) = c_players (cx s) /\ c_time (cx s1) = c_time (cx s) /\ c_term (cx s1) = c_term (cx s).
Lemma kept_refl s : kept s s. Proof. repeat split. Qed.
Lemma kept_fold {B} (f : st W -> B -> result (st W)) l : (forall x s s1, f s x = Ok s1 -> kept s s1) -> forall s s1, rfold f s l = Ok s1 -> kept s s1.
Proof.
  intro H. induction l as [|x l IH]; cbn [rfold]; intros s s1 E; [injection E as <-; apply kept_refl|].
  destruct (f s x) as [s2|] eqn:E2; [|discriminate]. apply H in E2 as (A1 & A2 & A3 & A4). apply IH in E as (B1 & B2 & B3 & B4). repeat split; congruence.
Qed.
Lemma kept_env s s1 : check_env s = Ok s1 -> kept s s1.
Proof.
  apply kept_fold. intros p s' s1' H. unfold check_env_player in H. inv_match H. revert H. apply kept_fold. clear. intros x s s1 H.
  unfold check_env1 in H. repeat (inv_match H); injection H as <-; repeat split.
Qed.
Lemma kept_pairs s s1 : check_players s = Ok s1 -> kept s s1.
Proof. apply kept_fold. clear. intros [p q] s s1 H. unfold check_pair in H. repeat (inv_match H); injection H as <-; repeat split. Qed.

Definition hist (K C : player -> Prop) s z : Prop :=
  c_time (cx z) = c_time (cx s) /\ akeys (c_players (cx z)) = filter (ne e) (akeys (c_players (cx s))) /\
  (forall q, C q -> q <> e -> dget (s_cmds (sm z)) q = dget (s_cmds (sm s)) q) /\ (forall q, K q -> q <> e -> logger_of z q = logger_of s q).
Lemma core_hist K C O s z : core K C O s z -> hist K C s z.
Proof. intros []. split; [assumption|]. split; [assumption|]. split; auto. Qed.
Lemma hist_kept K C s s1 z : kept s s1 -> hist K C s z -> hist K C s1 z.
Proof. intros (A1 & A2 & A3 & A4) (H1 & H2 & H3 & H4). unfold hist, logger_of in *. rewrite A1, A2, A3. auto. Qed.

Lemma post_apart K C O s z s1 : apart K C O s z -> lasting (g_missions (c_cfg (cx s))) -> post_update s = Ok s1 -> fine (ev s1) ->
  exists z1, post_update z = Ok z1 /\ hist K C s1 z1 /\ (c_term (cx s1) = c_term (cx z1) -> apart K C O s1 z1) /\ (c_term (cx s1) = true -> c_term (cx z1) = true) /\
    (~ In e (akeys (g_missions (c_cfg (cx s)))) -> (g_missions (c_cfg (cx s)) = [] -> exists q, q <> e /\ active s q) -> c_term (cx z1) = true -> c_term (cx s1) = true).
Proof.
  intros A L H P. unfold post_update in *. cbv zeta in *.
  set (s2 := upd_cx s (set_time (cx s) (time s + dt (param s)))) in *. set (z2 := upd_cx z (set_time (cx z) (time z + dt (param z)))).
  assert (A2 : apart K C O s2 z2).
  { destruct A as [A B]. split; [|exact B]. destruct A. constructor; auto. cbn [z2 s2 cx upd_cx set_time c_time]. unfold time, param. rewrite ap_time0, ap_param0. reflexivity. }
  destruct (remove_finished s2) as [s3|] eqn:E3; [|discriminate].
  assert (P3 : fine (ev s3)).
  { eapply fine_incl; [|exact P]. destruct (c_term (cx (maybe_terminate s3))); [injection H as <-; apply incl_refl|].
    destruct (check_env (maybe_terminate s3)) as [s4|] eqn:E4; [|discriminate]. eapply incl_tran; [|apply (fold_incl _ _ pair_incl) in H; exact H].
    unfold check_env in E4. apply fold_incl in E4; [exact E4|]. intros p a b Hab. eapply env_player_incl. exact Hab. }
  unfold remove_finished in *.
  destruct (fold_apart K C O remove_finished1 (fun pm => ne e (fst pm)) (g_missions (c_cfg (cx s2)))) with (s := s2) (z := z2) (s1 := s3) as (z3 & W3 & A3);
    [intros x a b Hab; eapply remove_incl; exact Hab|intros x a b d Kx Hab Hd _; eapply remove_apart; eassumption|intros x a b d Kx Hab Hd _; eapply remove_e; eassumption|exact A2|exact E3|exact P3|].
  rewrite (ap_miss _ _ _ _ _ (proj1 A2)). change (without e (g_missions (c_cfg (cx s2)))) with (filter (fun pm => ne e (fst pm)) (g_missions (c_cfg (cx s2)))). rewrite W3.
  assert (Cfg : c_cfg (cx s3) = c_cfg (cx s)).
  { assert (X : forall l (x y : st W), rfold remove_finished1 x l = Ok y -> c_cfg (cx y) = c_cfg (cx x)).
    { clear. induction l as [|[p g] l IH]; cbn [rfold]; intros x y H; [injection H as <-; reflexivity|]. destruct (remove_finished1 x (p, g)) as [w|] eqn:E; [|discriminate]. rewrite (IH _ _ H). clear IH H.
      unfold remove_finished1 in E. repeat (inv_match E); injection E as <-; try reflexivity. match goal with E : with_logger _ _ _ = Ok _ |- _ => apply with_logger_ev in E as [_ E]; cbn; rewrite E; reflexivity end. }
    rewrite (X _ _ _ E3). reflexivity. }
  pose proof (term_s _ _ _ _ _ (proj1 A3)) as Ts. rewrite Cfg in Ts. specialize (Ts L).
  assert (Tz : ~ In e (akeys (g_missions (c_cfg (cx s)))) -> (g_missions (c_cfg (cx s)) = [] -> exists q, q <> e /\ active s q) -> termination (cx z3) = true -> termination (cx s3) = true).
  { intros N1 N2. apply (term_z _ _ _ _ _ (proj1 A3)); rewrite Cfg; auto. intro E. destruct (N2 E) as (q & Nq & Aq). exists q. split; [exact Nq|].
    cbn [s2 cx upd_cx set_time c_cfg] in E3. rewrite E in E3. cbn in E3. injection E3 as <-. exact Aq. }
  assert (At : forall b b', apart K C O (upd_cx s3 (set_term (cx s3) b)) (upd_cx z3 (set_term (cx z3) b'))).
  { intros b b'. destruct A3 as [A3 B3]. split; [|exact B3]. destruct A3. constructor; auto. }
  unfold maybe_terminate in *. set (s4 := upd_cx s3 (set_term (cx s3) (termination (cx s3)))) in *. set (z4 := upd_cx z3 (set_term (cx z3) (termination (cx z3)))) in *.
  assert (A4 : apart K C O s4 z4) by apply At.
  assert (T4 : c_term (cx s4) = termination (cx s3)) by reflexivity. assert (U4 : c_term (cx z4) = termination (cx z3)) by reflexivity.
  destruct (c_term (cx s4)) eqn:Es.
  - injection H as <-. assert (U5 : c_term (cx z4) = true) by (rewrite U4; apply Ts; symmetry; exact T4). rewrite U5. exists z4. split; [reflexivity|]. split; [apply (core_hist _ _ _ _ _ (proj1 A4))|]. auto.
  - destruct (check_env s4) as [s5|] eqn:E5; [|discriminate]. pose proof (kept_env _ _ E5) as K5. pose proof (kept_pairs _ _ H) as K6.
    assert (T6 : c_term (cx s1) = false). { destruct K5 as (_ & _ & _ & X5), K6 as (_ & _ & _ & X6). rewrite X6, X5. exact Es. }
    destruct (c_term (cx z4)) eqn:Ez.
    + exists z4. split; [reflexivity|]. rewrite T6, Ez. split; [eapply hist_kept; [exact K6|]; eapply hist_kept; [exact K5|]; apply (core_hist _ _ _ _ _ (proj1 A4))|].
      split; [discriminate|]. split; [discriminate|]. intros N1 N2 _. rewrite T4. symmetry. rewrite (Tz N1 N2); [reflexivity|symmetry; exact U4].
    + assert (P5 : fine (ev s5)) by (eapply fine_incl; [apply (fold_incl _ _ pair_incl) in H; exact H|exact P]).
      destruct (fold_apart K C O check_env_player (ne e) (akeys (c_players (cx s4)))) with (s := s4) (z := z4) (s1 := s5) as (z5 & W5 & A5);
        [intros x a b Hab; eapply env_player_incl; exact Hab|intros; eapply env_apart; eassumption|intros; eapply env_e; eassumption|exact A4|exact E5|exact P5|].
      assert (Z5 : check_env z4 = Ok z5) by (unfold check_env; rewrite (ap_keys _ _ _ _ _ (proj1 A4)); exact W5). rewrite Z5.
      unfold check_players in H. destruct (fold_apart K C O check_pair (fun pq => ne e (fst pq) && ne e (snd pq))%bool (combinations2 (akeys (c_players (cx s5))))) with (s := s5) (z := z5) (s1 := s1) as (z6 & W6 & A6);
        [intros x a b Hab; eapply pair_incl; exact Hab|intros; eapply pair_apart; eassumption|intros; eapply pair_e; eassumption|exact A5|exact H|exact P|].
      assert (Z6 : check_players z5 = Ok z6) by (unfold check_players; rewrite (ap_keys _ _ _ _ _ (proj1 A5)), <- combos_filter; exact W6). rewrite Z6.
      exists z6. split; [reflexivity|]. split; [apply (core_hist _ _ _ _ _ (proj1 A6))|]. split; [auto|]. split; [rewrite T6; discriminate|].
      destruct (kept_env _ _ Z5) as (_ & _ & _ & X5), (kept_pairs _ _ Z6) as (_ & _ & _ & X6). rewrite X6, X5, Ez. discriminate.
Qed.

Lemma observe_filter (ms ms' : list (player * w_M W)) : (forall q, q <> e -> dget ms' q = dget ms q) -> forall l obs, rmapM (observe ms) l = Ok obs -> rmapM (observe ms') (filter (ne e) l) = Ok (without e obs).
Proof.
  intro M. induction l as [|q l IH]; intros obs H; cbn [rmapM filter] in *; [injection H as <-; reflexivity|].
  destruct (observe ms q) as [y|] eqn:E; [|discriminate]. destruct (rmapM (observe ms) l) as [r|]; [|discriminate]. injection H as <-.
  specialize (IH _ eq_refl). assert (Fy : fst y = q) by (unfold observe in E; destruct (dgetE ms q); [injection E as <-; reflexivity|discriminate]).
  unfold without in *. cbn [filter]. rewrite Fy. fold (ne e q). destruct (ne e q) eqn:Ne; [|exact IH]. apply ne_true in Ne. cbn [rmapM].
  assert (E' : observe ms' q = Ok y) by (unfold observe, agetE in *; rewrite (M q Ne); exact E). rewrite E', IH. reflexivity.
Qed.

Lemma step_apart K C O s z s1 : apart K C O s z -> (need_commands s = false -> forall p, active s p -> C p) -> lasting (g_missions (c_cfg (cx s))) -> step s = Ok s1 -> fine (ev s1) ->
  exists z1, step z = Ok z1 /\ hist K (fun q => C q \/ active s q) s1 z1 /\ (c_term (cx s1) = c_term (cx z1) -> apart K (fun q => C q \/ active s q) False s1 z1) /\ (c_term (cx s1) = true -> c_term (cx z1) = true) /\
    (~ In e (akeys (g_missions (c_cfg (cx s)))) -> (g_missions (c_cfg (cx s)) = [] -> exists q, q <> e /\ active s q) -> c_term (cx z1) = true -> c_term (cx s1) = true).
Proof.
  intros A Hc L H P. unfold step in *. destruct (pre_update s) as [s2|] eqn:E2; [|discriminate].
  destruct (update s2) as [s3|] eqn:E3; [|discriminate].
  assert (P3 : fine (ev s3)) by (eapply fine_incl; [apply post_incl; exact H|exact P]).
  assert (X : exists z2, pre_update z = Ok z2 /\ apart K C (need_commands s = true) s2 z2).
  { unfold pre_update in *. rewrite (ap_need _ _ _ _ _ (proj1 A)). destruct (need_commands s) eqn:Nd.
    - destruct (rmapM (observe (c_models (cx s))) (akeys (c_players (cx s)))) as [obs|] eqn:Eo; [|discriminate]. injection E2 as <-.
      rewrite (ap_keys _ _ _ _ _ (proj1 A)), (observe_filter _ _ (ap_models _ _ _ _ _ (proj1 A)) _ _ Eo). eexists. split; [reflexivity|].
      destruct A as [A B]. split; [|exact B]. destruct A. constructor; auto. intros _. cbn. unfold obs_without, time. cbn. rewrite ap_time0. reflexivity.
    - injection E2 as <-. eexists. split; [reflexivity|]. eapply ap_mono; [exact A|auto|discriminate]. }
  destruct X as (z2 & W2 & A2). rewrite W2.
  apply pre_update_ok in E2 as (Q1 & _ & Q3 & _).
  assert (Nd2 : need_commands s2 = need_commands s) by (unfold need_commands, time, param; rewrite Q3, Q1; reflexivity).
  unfold update in E3. cbv zeta in E3. destruct (rfold (update_player (time s2)) s2 (akeys (c_players (cx s2)))) as [s2'|] eqn:E4; [|discriminate].
  assert (P4 : fine (ev s2')) by (destruct (need_commands s2'); injection E3 as <-; exact P3).
  assert (Y : exists z2', rfold (update_player (time s2)) z2 (filter (ne e) (akeys (c_players (cx s2)))) = Ok z2' /\ apart K (fun q => C q \/ In q (akeys (c_players (cx s2)))) (need_commands s = true) s2' z2').
  { eapply players_apart; [exact A2|rewrite Nd2; auto|auto| |exact E4|exact P4].
    rewrite Nd2. intros Nd p Hp. apply Hc; [exact Nd|unfold active; rewrite <- Q1; exact Hp]. }
  destruct Y as (z2' & Y1 & Y2).
  assert (F : frame s2 s2') by (apply players_incl in E4 as [_ F]; exact F).
  assert (U : exists z3, update z2 = Ok z3 /\ apart K (fun q => C q \/ active s q) False s3 z3).
  { unfold update. cbv zeta. unfold time at 1. rewrite (ap_time _ _ _ _ _ (proj1 A2)), (ap_keys _ _ _ _ _ (proj1 A2)). fold (time s2). rewrite Y1, (ap_need _ _ _ _ _ (proj1 Y2)).
    exists (if need_commands s2' then upd_sm z2' (set_last (sm z2') (Some (time s2))) else z2').
    split; [destruct (need_commands s2'); unfold time; rewrite ?(ap_time _ _ _ _ _ (proj1 A2)); reflexivity|].
    assert (Y3 : apart K (fun q => C q \/ active s q) False s2' z2').
    { eapply ap_mono; [exact Y2| |tauto]. unfold active. rewrite Q1. auto. }
    destruct (need_commands s2'); injection E3 as <-; [|exact Y3]. destruct Y3 as [Y3 B3]. split; [|exact B3]. destruct Y3. constructor; auto. }
  destruct U as (z3 & U1 & U2). rewrite U1.
  assert (Cf : c_cfg (cx s3) = c_cfg (cx s)) by (destruct (need_commands s2'); injection E3 as <-; cbn; rewrite (f_cfg _ _ F), Q1; reflexivity).
  assert (Ac : forall q, active s q -> active s3 q) by (intros q; unfold active; destruct (need_commands s2'); injection E3 as <-; cbn; rewrite (f_players _ _ F), Q1; auto).
  rewrite <- Cf in L. destruct (post_apart _ _ _ _ _ _ U2 L H P) as (z4 & W4 & R1 & R2 & R3 & R4). exists z4. rewrite Cf in R4.
  repeat (split; [assumption|]). intros N1 N2. apply R4; [exact N1|]. intro E. destruct (N2 E) as (q & Nq & Aq). eauto.
Qed.
End Apart.

(** ** Runs *)
Section Run.
Context {W : world} (e : player).
Implicit Types (c : ctx W) (s z : st W).

Lemma in_asks s p t full o u : In (EAsk p t full o u) (ev s) -> In full (map ask_seen (asks s p)).
Proof.
  intro H. apply in_map_iff. exists (t, full, o, u). split; [reflexivity|]. unfold asks, asks_of. apply in_flat_map. exists (EAsk p t full o u).
  split; [apply -> in_rev; exact H|]. rewrite Nat.eqb_refl. left. reflexivity.
Qed.

Lemma valid_without c : valid_ctx c -> valid_ctx (ctx_without e c).
Proof.
  intros V. destruct (valid_ctx_keys _ V) as [K1 K2]. destruct V as (_ & N1 & N2 & N3). unfold valid_ctx, ctx_without. cbn [c_models c_players c_cfg g_missions].
  rewrite !keys_without. split; [|split; [|split]]; try apply NoDup_filter; auto.
  unfold ctx_post_init. cbn [c_models c_players c_cfg g_missions].
  replace (same_keys _ _) with true; [|symmetry; apply same_keys_spec; intro q; rewrite !keys_without, !filter_In; split; intros [X Y]; (split; [apply K1|]; assumption)]. cbn [negb].
  replace (forallb _ _) with true; [reflexivity|]. symmetry. apply forallb_forall. intros p Hp. apply dmem_spec. change (In p (akeys (without e (g_missions (c_cfg c))))) in Hp. rewrite keys_without in Hp. rewrite keys_without. apply filter_In in Hp as [Hp Np]. apply filter_In. split; [apply K2, Hp|exact Np].
Qed.

Lemma init_without c m m' s0 : NoDup (akeys (c_players c)) -> init_run c m = Ok s0 -> exists z0, init_run (ctx_without e c) m' = Ok z0 /\
  forall q a, q <> e -> dget (c_players (cx s0)) q = Some a -> dget (c_players (cx z0)) q = Some a.
Proof.
  intros Nd H. unfold init_run in *. replace (akeys (c_players (ctx_without e c))) with (filter (ne e) (akeys (c_players c))) by (symmetry; apply keys_without).
  assert (X : forall l s z, rfold init_player s l = Ok s0 -> c_cfg (cx s) = c_cfg c -> c_models (cx s) = c_models c -> c_cfg (cx z) = c_cfg (ctx_without e c) -> c_models (cx z) = without e (c_models c) ->
     (forall q, q <> e -> dget (c_players (cx z)) q = dget (c_players (cx s)) q) ->
     exists z0, rfold init_player z (filter (ne e) l) = Ok z0 /\ forall q, q <> e -> dget (c_players (cx z0)) q = dget (c_players (cx s0)) q).
  { induction l as [|p l IH]; cbn [rfold filter]; intros s z Hs E1 E2 F1 F2 G; [injection Hs as <-; eauto|].
    destruct (init_player s p) as [s2|] eqn:E; [|discriminate]. apply init_player_ok in E as (a & a' & A1 & (m0 & A2 & A3) & ->).
    destruct (ne e p) eqn:Ne.
    - apply ne_true in Ne. cbn [rfold]. unfold init_player at 1. unfold agetE. rewrite (G p Ne), A1, F2, (dget_without e _ p Ne). unfold model_of in A2. rewrite E2 in A2. rewrite A2.
      rewrite F1. cbn [ctx_without c_cfg g_seed g_scen g_missions]. rewrite (dget_without e _ p Ne). rewrite E1 in A3. rewrite A3.
      eapply IH; [exact Hs|..]; cbn; auto. intros q Nq. rewrite !dget_dset. destruct (Nat.eqb p q); auto.
    - apply ne_false in Ne. subst p. eapply IH; [exact Hs|..]; cbn; auto. intros q Nq. rewrite dget_dset_other by congruence. auto. }
  destruct (X _ _ (mkSt (ctx_without e c) m' []) H) as (z0 & Z1 & Z2); try reflexivity; [cbn; intros; apply dget_without; assumption|].
  exists z0. split; [exact Z1|]. intros q a Nq Ha. rewrite Z2; assumption.
Qed.

Definition loosely c : Prop := In e (akeys (g_missions (c_cfg c))) -> exists q, q <> e /\ In q (akeys (g_missions (c_cfg c))).

Lemma after_le s0 k s : after s0 k s -> forall j sj, after s0 j sj -> (j <= k)%nat -> incl (ev sj) (ev s).
Proof.
  induction 1 as [|k s s' A IH T E]; intros j sj Aj L.
  - replace j with 0%nat in Aj by lia. inversion Aj. apply incl_refl.
  - destruct (Nat.eq_dec j (S k)) as [->|Nj].
    + inversion Aj as [|? x ? Ax Tx Ex]; subst. assert (x = s) as -> by (eapply after_fun; eassumption). rewrite E in Ex. injection Ex as <-. apply incl_refl.
    + eapply incl_tran; [apply (IH j sj Aj); lia|]. apply step_incl. exact E.
Qed.

Record alike c (k : nat) s (j : nat) sj z : Prop := mkAlike {
  al_end : (j = k /\ sj = s) \/ ((j < k)%nat /\ c_term (cx z) = true);
  al_hist : same_histories e sj z;
  al_same : c_term (cx sj) = c_term (cx z) -> same_others e sj z;
  al_term : c_term (cx sj) = true -> c_term (cx z) = true;
  al_bystander : ~ In e (akeys (g_missions (c_cfg c))) -> (exists q, q <> e /\ In q (akeys (c_models c))) -> c_term (cx sj) = c_term (cx z)
}.

Lemma run_apart c s0 z0 k s : started c s0 -> started (ctx_without e c) z0 -> 0 < dt (g_param (c_cfg c)) -> loosely c -> after s0 k s ->
  (forall q, q <> e -> In q (akeys (c_models c)) -> ignores c s e q) -> untouched e s ->
  exists j sj z, after s0 j sj /\ after z0 j z /\ alike c k s j sj z.
Proof.
  intros St Sz D L A Ig [U1 U2].
  pose (K := fun q : player => In q (akeys (c_models c))).
  pose (sc := g_scen (c_cfg c)).
  pose (Seen := fun q o => In o (map ask_seen (asks s q))).
  pose (R := fun q fa hb => exists R0, cannot_tell e sc q (map ask_seen (asks s q)) R0 /\ R0 fa hb : Prop).
  assert (HR : forall p f a h b o f' g a1 u a2 x, p <> e -> R p (f, a) (h, b) -> Seen p o ->
    sense W f sc o p = Ok (f', g) -> agent_cmds W a g = Ok (a1, u) -> agent_extra W a1 = Ok (a2, x) ->
    exists h' g' b1 b2, sense W h sc (obs_without e o) p = Ok (h', g') /\ agent_cmds W b g' = Ok (b1, u) /\ agent_extra W b1 = Ok (b2, x) /\ R p (f', a2) (h', b2)).
  { intros p f a h b o f' g a1 u a2 x Np (R0 & C0 & H0) So S1 S2 S3. destruct (C0 _ _ _ _ _ _ _ _ _ _ _ H0 So S1 S2 S3) as (h' & g' & b1 & b2 & B1 & B2 & B3 & B4).
    exists h', g', b1, b2. repeat (split; [assumption|]). exists R0. auto. }
  assert (Fi : fine e Seen (ev s)).
  { split; [exact U1|]. split; [exact U2|]. intros p t full o u H Np. eapply in_asks. exact H. }
  pose (Cj := fun (x : st W) p => active x p /\ s_last (sm x) <> None).
  pose (B := ~ In e (akeys (g_missions (c_cfg c))) /\ (exists q, q <> e /\ In q (akeys (c_models c)))).
  assert (G : forall k' s', after s0 k' s' -> (k' <= k)%nat -> exists j sj z, after s0 j sj /\ after z0 j z /\ ((j = k' /\ sj = s') \/ ((j < k')%nat /\ c_term (cx z) = true)) /\
     hist e K (fun _ => False) sj z /\ (c_term (cx sj) = c_term (cx z) -> apart e R sc K (Cj sj) False sj z) /\ (c_term (cx sj) = true -> c_term (cx z) = true) /\ (B -> c_term (cx sj) = c_term (cx z)) /\
     (g_missions (c_cfg c) = [] -> forall q, K q -> active sj q)).
  { induction 1 as [|k' x x' Ax IH Tx Ex]; intro Lk.
    - exists 0%nat, s0, z0. split; [constructor|]. split; [constructor|]. split; [left; auto|].
      destruct St as (V & m & Um & H0). destruct Sz as (V' & m' & Um' & H0'). destruct (valid_ctx_keys _ V) as [K1 K2].
      destruct (init_run_ok c m s0 H0) as (Q1&Q2&Q3&Q4&Q5&Q6&Q7&Q8&Q9&Q10&Q11&Q12&Q13&Q14&Q15).
      destruct (init_run_ok _ m' z0 H0') as (T1&T2&T3&T4&T5&T6&T7&T8&T9&T10&T11&T12&T13&T14&T15).
      cbn [ctx_without c_cfg c_models c_players c_sensors c_log c_time c_term c_reports c_first] in *.
      assert (Co : core e sc K (Cj s0) False s0 z0).
      { constructor; rewrite ?Q1, ?Q2, ?Q3, ?Q6, ?Q8, ?Q9, ?Q11, ?T1, ?T2, ?T3, ?T6, ?T8, ?T9, ?T11; try reflexivity.
        - intros. apply dget_without. assumption.
        - apply keys_without.
        - apply V.
        - rewrite Um, Um'. reflexivity.
        - intros [].
        - unfold Cj. rewrite Q11, Um. intros q [_ X]. congruence.
        - intros q Kq Nq. apply K1 in Kq. rewrite (Q14 q Kq), T14; [reflexivity|]. rewrite keys_without. apply in_filter_ne. auto.
        - intros q Hq. unfold active in Hq. rewrite Q3 in Hq. apply K1, Hq. }
      assert (Bi : bis e R (cx s0) (cx z0)).
      { intros q a Nq Ha. destruct (init_without c m m' s0) as (z0' & Z1 & Z2); [apply V|exact H0|]. rewrite H0' in Z1. injection Z1 as <-.
        exists a. split; [apply Z2; assumption|]. intros f Hf.
        assert (Hq : In q (akeys (c_players c))) by (rewrite <- Q3; eapply dget_Some_In; exact Ha).
        destruct (init_agents c m s0 (proj1 (proj2 (proj2 V))) H0 q Hq) as (a' & I1 & I2). rewrite Ha in I2. injection I2 as <-.
        assert (Gs : get_sensor c q = Ok f) by (unfold get_sensor in *; rewrite Q1, Q4 in Hf; exact Hf).
        exists f. split. { unfold get_sensor in *. rewrite T1, T4. cbn [g_sensors_default]. rewrite (dget_without e _ q Nq). exact Gs. }
        destruct (Ig q Nq) as (R0 & C0 & H0''); [apply K1, Hq|]. exists R0. split; [exact C0|]. apply H0''; assumption. }
      assert (Te : c_term (cx s0) = c_term (cx z0)) by (rewrite Q7, T7; reflexivity).
      split; [apply (core_hist e sc K (fun _ => False) False); eapply core_mono; [exact Co|tauto|tauto]|]. split; [intros _; split; assumption|]. split; [congruence|]. split; [auto|].
      intros _ q Kq. unfold active. rewrite Q3. apply K1, Kq.
    - destruct IH as (j & sj & z & A1 & A2 & A3 & A4 & A5 & A6 & A7 & A8); [lia|].
      destruct (c_term (cx z)) eqn:Tz.
      { exists j, sj, z. split; [exact A1|]. split; [exact A2|]. split; [right; split; [destruct A3 as [[-> _]|[? _]]; lia|exact Tz]|]. rewrite ?Tz. repeat (split; [assumption|]). assumption. }
      destruct A3 as [[-> ->]|[_ X]]; [|discriminate]. specialize (A5 Tx).
      assert (Ax' : after s0 (S k') x') by (econstructor; eassumption).
      assert (Fx : fine e Seen (ev x')) by (eapply fine_incl; [eapply (after_le s0 k s A); [exact Ax'|lia]|exact Fi]).
      pose proof (after_step _ _ _ _ _ St D A1 Ex) as Sr. pose proof (started_facts _ _ _ _ St D A1) as F1.
      destruct (step_apart e Seen R sc HR K (Cj x) False x z x' A5) as (z' & Z1 & Z2 & Z3 & Z4 & Z5); [| |exact Ex|exact Fx|].
      + intros Nd p Hp. split; [exact Hp|]. intro X. unfold need_commands in Nd. rewrite X in Nd. discriminate.
      + rewrite (fa_cfg _ _ _ _ F1). exact L.
      + exists (S k'), x', z'. split; [exact Ax'|]. split; [econstructor; eassumption|]. split; [left; auto|].
        split. { destruct Z2 as (H1 & H2 & _ & H4). split; [exact H1|]. split; [exact H2|]. split; [intros q []|exact H4]. }
        split. { intro Te. eapply ap_mono; [apply Z3, Te| |tauto]. intros q _ [Hq _]. right. eapply srel_active; eassumption. }
        split; [exact Z4|]. rewrite (fa_cfg _ _ _ _ F1) in Z5. split.
        { intros [B1 (q & Nq & Bq)]. destruct (c_term (cx x')) eqn:E1; [symmetry; auto|]. destruct (c_term (cx z')) eqn:E2; [|reflexivity].
          apply Z5; [exact B1| |reflexivity]. intro Em. exists q. split; [exact Nq|]. apply A8; assumption. }
        intros Em q Kq. destruct (sr_act _ _ Sr q (A8 Em q Kq)) as [? ? ? ? ? ? fin _ _ _ _ _ _ _ Hf Hg _ _ _ _ _].
        destruct (in_dec Nat.eq_dec q (akeys (c_players (cx x')))) as [X|X]; [exact X|]. exfalso. apply Hf, Hg in X. destruct X as (g & Hg' & _). rewrite (fa_cfg _ _ _ _ F1), Em in Hg'. discriminate. }
  destruct (G k s A (le_n _)) as (j & sj & z & G1 & G2 & G3 & G4 & G5 & G6 & G7 & _). exists j, sj, z. split; [exact G1|]. split; [exact G2|].
  pose proof (started_facts _ _ _ _ St D G1) as F1.
  assert (Hh : same_histories e sj z).
  { destruct G4 as (H1 & H2 & _ & H4). split; [exact H1|]. split; [exact H2|]. rewrite (fa_models _ _ _ _ F1). intros q Nq Kq. apply H4; assumption. }
  constructor; auto.
  - intro Te. split; [exact Hh|]. destruct (G5 Te) as [[] _]. auto.
  - intros B1 B2. apply G7. split; assumption.
Qed.
End Run.
