(** The invariants along the steps of the program. *)
From Coq Require Import QArith Qcanon List Bool Arith Lia.
From Verif Require Import Base Num SeqModel SimulatorModel DictLemmas HeapModel HeapSpec HeapProofs.
Import ListNotations.
Open Scope nat_scope.

Lemma combine_snoc {A C} (l : list A) (l' : list C) a c :
  length l = length l' -> combine (l ++ [a]) (l' ++ [c]) = combine l l' ++ [(a, c)].
Proof.
  revert l'; induction l as [|x l IH]; intros [|y l'] E; try discriminate E; [reflexivity|].
  cbn. rewrite IH by (injection E; auto). reflexivity.
Qed.
Lemma combine_app_in {A C} (l : list A) (l' : list C) ts vs x :
  length l = length l' -> In x (combine l l') -> In x (combine (l ++ ts) (l' ++ vs)).
Proof.
  revert l'; induction l as [|a l IH]; intros [|c l'] E I; try discriminate E; [destruct I|].
  cbn in *. destruct I as [<-|I]; [left; reflexivity|right]. apply IH; [injection E; auto|exact I].
Qed.

Section Prog.
Context {H : hworld} (cfg : hconfig H).
Notation X := (h_X H). Notation U := (h_U H). Notation B := (h_B H).
Context (m0 : memory X U).

Definition good (upd : list player) (s : hst H) : Prop := inv m0 upd (t_mem s) (t_models s) (t_logs s).
Definition kept (s s' : hst H) : Prop := keeps (t_mem s) (t_logs s) (t_mem s') (t_logs s').

(** Objects nobody but the program holds keep their content. *)
Definition still (s s' : hst H) : Prop :=
  m_nx (t_mem s) <= m_nx (t_mem s') /\
  forall r, r < m_nx (t_mem s) -> ~ In r (m_seen (t_mem s)) -> m_x (t_mem s') r = m_x (t_mem s) r.
Lemma still_refl s : still s s. Proof. split; [lia|reflexivity]. Qed.
Lemma kept_refl s : kept s s. Proof. apply keeps_refl. Qed.
Lemma kept_trans s s1 s2 : kept s s1 -> kept s1 s2 -> kept s s2. Proof. apply keeps_trans. Qed.

Lemma logger_Ok s p f s' : h_logger (H:=H) s p f = Ok s' ->
  exists l l', dget (t_logs s) p = Some l /\ f l = Ok l' /\ s' = st_logs s (dset (t_logs s) p l').
Proof.
  unfold h_logger. destruct (agetE Nat.eqb (t_logs s) p) as [l|] eqn:E; [|discriminate].
  apply agetE_Ok in E. destruct (f l) as [l'|] eqn:Ef; [|discriminate]. intro Q; injection Q as <-. eauto.
Qed.

(** An agent's turn. *)
Lemma ask_spec upd s p t s' : good upd s -> h_ask cfg s p t = Ok s' ->
  good upd s' /\ kept s s' /\ still s s' /\ t_models s' = t_models s /\ akeys (t_players s') = akeys (t_players s) /\
  m_seen (t_mem s') = m_seen (t_mem s) /\ t_time s' = t_time s /\ t_term s' = t_term s.
Proof.
  intros V Q. unfold h_ask in Q.
  destruct (h_sensor cfg s p) as [f|]; [|discriminate].
  destruct (h_sense H f (hc_scen cfg) (t_obs s) (t_mem s) p) as [[f' o]|]; [|discriminate].
  destruct (agetE Nat.eqb (t_players s) p) as [a|] eqn:Ea; [|discriminate]. apply agetE_Ok in Ea.
  destruct (h_agent H a o (t_mem s)) as [[[a' is] c]|]; [|discriminate].
  destruct (returned (exec (t_mem s) is) c) as [[m1 r]|] eqn:Er; [|discriminate].
  destruct (inv_exec _ _ _ _ _ is V) as [V1 K1]. destruct (exec_spec is (t_mem s)) as (A1 & A2 & A3).
  assert (M1 : inv m0 upd m1 (t_models s) (t_logs s) /\ m_x m1 = m_x (exec (t_mem s) is) /\
               m_nx m1 = m_nx (t_mem s) /\ m_seen m1 = m_seen (t_mem s)).
  { destruct c as [u|r1]; cbn [returned] in Er.
    - injection Er as <- <-. split; [apply inv_u; exact V1|]. cbn. rewrite A1, A2. repeat split; reflexivity.
    - destruct (Nat.ltb r1 (m_nu (exec (t_mem s) is))); [|discriminate]. injection Er as <- <-.
      split; [exact V1|]. rewrite A1, A2. repeat split; reflexivity. }
  destruct M1 as (W1 & X1 & N1 & S1). clear Er V1.
  set (s1 := st_cmds (st_players (st_sensors (st_mem s m1) (dset (t_sensors s) p f')) (dset (t_players s) p a')) (dset (t_cmds s) p r)) in Q.
  assert (G1 : good upd s1) by exact W1.
  assert (C1 : kept s s1). { unfold kept. cbn. intros q lq Eq. destruct (K1 q lq Eq) as (l' & ? & ? & R). exists l'. rewrite X1. repeat split; auto. }
  destruct (h_logger s1 p (h_log_command t r)) as [s2|] eqn:E2; [|discriminate].
  destruct (logger_Ok _ _ _ _ E2) as (l & l' & D1 & D2 & ->).
  unfold h_log_command in D2. destruct (b_add (k_commands l) t r) as [b|]; [|discriminate]. injection D2 as <-.
  set (s2 := st_logs s1 _) in *.
  assert (G2 : good upd s2 /\ kept s1 s2).
  { apply (inv_log_other m0 upd (t_mem s1) (t_models s1) (t_logs s1) p l (mkK (k_states l) b (k_extra l) (k_info l)) G1 D1 eq_refl). }
  destruct (h_logger s2 p (h_log_info t (h_cpu H p t))) as [s3|] eqn:E3; [|discriminate].
  destruct (logger_Ok _ _ _ _ E3) as (l3 & l3' & D3 & D4 & ->).
  unfold h_log_info in D4. destruct (b_add (k_info l3) t (h_cpu H p t)) as [b3|]; [|discriminate]. injection D4 as <-.
  set (s3 := st_logs s2 _) in *.
  assert (G3 : good upd s3 /\ kept s2 s3).
  { apply (inv_log_other m0 upd (t_mem s2) (t_models s2) (t_logs s2) p l3 (mkK (k_states l3) (k_commands l3) (k_extra l3) b3) (proj1 G2) D3 eq_refl). }
  destruct (h_extra H a' (t_mem s3)) as [[[a'' is'] x]|]; [|discriminate].
  destruct (inv_exec _ _ _ _ _ is' (proj1 G3)) as [V4 K4]. destruct (exec_spec is' (t_mem s3)) as (B1 & B2 & B3).
  set (s4 := st_players (st_mem s3 (exec (t_mem s3) is')) (dset (t_players s3) p a'')) in *.
  assert (G4 : good upd s4) by exact V4. assert (C4 : kept s3 s4) by exact K4.
  assert (C : kept s s4).
  { eapply kept_trans; [exact C1|]. eapply kept_trans; [exact (proj2 G2)|]. eapply kept_trans; [exact (proj2 G3)|exact C4]. }
  assert (T : still s s4).
  { split; [cbn; cbn in B1; lia|]. intros r1 L1 N. cbn. cbn in B3. rewrite B3, X1 by (rewrite S1; exact N). apply A3; exact N. }
  assert (KP : akeys (t_players s4) = akeys (t_players s)).
  { cbn. rewrite keys_dset; rewrite keys_dset; try reflexivity; apply dget_Some_In in Ea; exact Ea. }
  assert (SN : m_seen (t_mem s4) = m_seen (t_mem s)) by (cbn; cbn in B2; congruence).
  destruct x as [v|].
  - destruct (logger_Ok _ _ _ _ Q) as (l5 & l5' & D5 & D6 & ->).
    unfold h_log_extra in D6. destruct (b_add (k_extra l5) t v) as [b5|]; [|discriminate]. injection D6 as <-.
    destruct (inv_log_other m0 upd (t_mem s4) (t_models s4) (t_logs s4) p l5 (mkK (k_states l5) (k_commands l5) b5 (k_info l5)) G4 D5 eq_refl) as [G5 C5].
    split; [exact G5|]. split; [eapply kept_trans; [exact C|exact C5]|]. split; [exact T|]. split; [reflexivity|].
    split; [exact KP|]. split; [exact SN|]. split; reflexivity.
  - injection Q as <-. split; [exact G4|]. split; [exact C|]. split; [exact T|]. split; [reflexivity|].
    split; [exact KP|]. split; [exact SN|]. split; reflexivity.
Qed.

(** One player's turn in update. *)
Lemma update_player_spec upd t s p s' : good upd s -> h_update_player cfg t s p = Ok s' ->
  good (p :: upd) s' /\ kept s s' /\ still s s' /\
  akeys (t_players s') = akeys (t_players s) /\ akeys (t_models s') = akeys (t_models s) /\
  m_seen (t_mem s') = m_seen (t_mem s) /\ t_time s' = t_time s /\ t_term s' = t_term s /\
  (forall q, q <> p -> dget (t_models s') q = dget (t_models s) q) /\
  exists r b, dget (t_models s) p = Some (r, b) /\
    (exists u r' b', dget (t_models s') p = Some (r', b') /\
       h_step H (m_x (t_mem s) r, b) u (dt (hc_param cfg)) = Ok (m_x (t_mem s') r', b')) /\
    (exists rl, logged s' p t rl /\ m_x (t_mem s') rl = m_x (t_mem s) r).
Proof.
  intros V Q. unfold h_update_player in Q.
  destruct (agetE Nat.eqb (t_models s) p) as [[r0 b0]|] eqn:Em; [|discriminate]. apply agetE_Ok in Em.
  unfold h_get_state in Q.
  destruct (inv_new_x _ _ _ _ _ (m_x (t_mem s) r0) V) as (V0 & K0 & Y0 & Z0).
  destruct (new_x (t_mem s) (m_x (t_mem s) r0)) as [mm rl] eqn:En. assert (Nrl : rl = m_nx (t_mem s)) by (unfold new_x in En; congruence).
  assert (Nmm : m_nx mm = S (m_nx (t_mem s)) /\ m_seen mm = m_seen (t_mem s)) by (unfold new_x in En; injection En as <- _; split; reflexivity).
  cbn [fst] in *. destruct Nmm as [Nx Ns]. clear En.
  set (s0 := st_mem s mm) in *.
  destruct (h_logger s0 p (h_log_state t rl)) as [s1|] eqn:E1; [|discriminate].
  destruct (logger_Ok _ _ _ _ E1) as (l & l' & D1 & D2 & ->).
  unfold h_log_state in D2. destruct (b_add (k_states l) t rl) as [b|] eqn:Eb; [|discriminate]. injection D2 as <-.
  apply b_add_Ok in Eb.
  destruct (inv_log m0 upd mm (t_models s) (t_logs s) p l b t rl V0 D1 Eb) as [V1 K1].
  { lia. } { rewrite Ns. intro I. apply (i_seen _ _ _ _ _ V) in I. lia. }
  { intros q bq Eq. apply (i_models _ _ _ _ _ V) in Eq. lia. }
  set (s1 := st_logs s0 _) in *.
  assert (G1 : good upd s1) by exact V1.
  assert (C1 : kept s s1). { unfold kept. eapply keeps_trans; [exact K0|exact K1]. }
  assert (T1 : still s s1). { split; [cbn; lia|]. intros r L _. cbn. apply Z0. exact L. }
  assert (Q2 : exists s2, (if h_need cfg s1 then h_ask cfg s1 p t else Ok s1) = Ok s2 /\ good upd s2 /\ kept s1 s2 /\ still s1 s2 /\
     t_models s2 = t_models s1 /\ akeys (t_players s2) = akeys (t_players s1) /\ m_seen (t_mem s2) = m_seen (t_mem s1) /\
     t_time s2 = t_time s1 /\ t_term s2 = t_term s1).
  { destruct (h_need cfg s1).
    - destruct (h_ask cfg s1 p t) as [s2|] eqn:E2; [|discriminate Q].
      exists s2. split; [reflexivity|]. exact (ask_spec _ _ _ _ _ G1 E2).
    - exists s1. split; [reflexivity|]. split; [exact G1|]. split; [apply kept_refl|]. split; [apply still_refl|]. repeat split; reflexivity. }
  destruct Q2 as (s2 & E2 & G2 & C2 & T2 & Md & Kp & Sn & Ti & Te). rewrite E2 in Q.
  destruct (agetE Nat.eqb (t_cmds s2) p) as [ru|]; [|discriminate].
  rewrite Md in Q. change (t_models s1) with (t_models s) in Q. unfold agetE in Q. rewrite Em in Q.
  destruct (h_step H (m_x (t_mem s2) r0, b0) (m_u (t_mem s2) ru) (dt (hc_param cfg))) as [[x' b']|] eqn:Es; [|discriminate].
  destruct (new_x (t_mem s2) x') as [m' r'] eqn:En.
  injection Q as <-.
  assert (Nr : r' = m_nx (t_mem s2)) by (unfold new_x in En; congruence).
  assert (Mr : m' = fst (new_x (t_mem s2) x')) by (rewrite En; reflexivity).
  assert (P0 : r0 < m_nx (t_mem s) /\ ~ In r0 (m_seen (t_mem s))) by exact (i_models _ _ _ _ _ V _ _ _ Em).
  assert (V2 : inv m0 upd (t_mem s2) (t_models s) (t_logs s2)) by (unfold good in G2; rewrite Md in G2; exact G2).
  destruct (inv_rebind m0 upd (t_mem s2) (t_models s) (t_logs s2) p x' b' V2 (ex_intro _ _ Em)) as [V3 K3].
  destruct (inv_new_x _ _ _ _ _ x' V2) as (_ & _ & Y3 & Z3). rewrite <- Mr in *.
  assert (Nm' : m_nx m' = S (m_nx (t_mem s2)) /\ m_seen m' = m_seen (t_mem s2)) by (rewrite Mr; split; reflexivity).
  set (s3 := st_models (st_mem s2 m') _).
  assert (C3 : kept s s3). { eapply kept_trans; [exact C1|]. eapply kept_trans; [exact C2|exact K3]. }
  assert (Sn1 : m_seen (t_mem s1) = m_seen (t_mem s)) by exact Ns.
  assert (T3 : still s s3).
  { destruct T1 as [N1 R1], T2 as [N2 R2]. split; [cbn; lia|]. intros r L N. cbn.
    rewrite Z3 by lia. rewrite R2; [|lia|rewrite Sn1; exact N]. apply R1; assumption. }
  split. { unfold good. cbn. rewrite Nr. exact V3. }
  split; [exact C3|]. split; [exact T3|]. split; [exact Kp|].
  split. { cbn. apply keys_dset. exact (dget_Some_In _ _ _ Em). }
  split. { cbn. rewrite (proj2 Nm'), Sn. exact Ns. }
  split; [exact Ti|]. split; [exact Te|].
  split. { intros q N. cbn. apply dget_dset_other. congruence. }
  exists r0, b0. split; [exact Em|]. split.
  - exists (m_u (t_mem s2) ru), r', b'. split; [cbn; apply dget_dset_same|].
    cbn. rewrite Nr, Y3, <- Es. f_equal. f_equal. destruct T1 as [N1 R1], T2 as [N2 R2].
    rewrite R2; [|lia|rewrite Sn1; tauto]. symmetry. apply R1; tauto.
  - exists rl. assert (D : dget (t_logs s1) p = Some (mkK b (k_commands l) (k_extra l) (k_info l))) by (cbn; apply dget_dset_same).
    assert (C23 : kept s1 s3) by (eapply kept_trans; [exact C2|exact K3]).
    destruct (C23 _ _ D) as (l3 & D3 & (ts & vs & Ll & Ht & Hv) & R). cbn [k_states] in *. split.
    + exists l3. split; [exact D3|]. rewrite Ht, Hv. apply combine_app_in.
      * subst b. cbn. rewrite !app_length. f_equal. apply (i_logs _ _ _ _ _ V p l D1).
      * subst b. cbn. rewrite combine_snoc by apply (i_logs _ _ _ _ _ V p l D1). apply in_or_app; right; left; reflexivity.
    + rewrite R; [|subst b; cbn; apply in_or_app; right; left; reflexivity]. cbn. rewrite Nrl. exact Y0.
Qed.

Lemma kept_logged upd s s' p t r : good upd s -> kept s s' -> logged s p t r ->
  logged s' p t r /\ m_x (t_mem s') r = m_x (t_mem s) r.
Proof.
  intros V K (l & E & I). destruct (K p l E) as (l' & E' & (ts & vs & Ll & Ht & Hv) & R). split.
  - exists l'. split; [exact E'|]. rewrite Ht, Hv. apply combine_app_in; [|exact I]. apply (i_logs _ _ _ _ _ V p l E).
  - apply R. apply in_combine_r in I. exact I.
Qed.

(** All players' turns. *)
Definition moved (t : Qc) (s s' : hst H) (p : player) : Prop :=
  exists r b, dget (t_models s) p = Some (r, b) /\
    (exists u r' b', dget (t_models s') p = Some (r', b') /\
       h_step H (m_x (t_mem s) r, b) u (dt (hc_param cfg)) = Ok (m_x (t_mem s') r', b')) /\
    (exists rl, logged s' p t rl /\ m_x (t_mem s') rl = m_x (t_mem s) r).

Lemma update_fold_spec upd t s l s' : good upd s -> NoDup l -> rfold (h_update_player cfg t) s l = Ok s' ->
  good (l ++ upd) s' /\ kept s s' /\ still s s' /\
  akeys (t_players s') = akeys (t_players s) /\ akeys (t_models s') = akeys (t_models s) /\
  m_seen (t_mem s') = m_seen (t_mem s) /\ t_time s' = t_time s /\ t_term s' = t_term s /\
  (forall q, ~ In q l -> dget (t_models s') q = dget (t_models s) q) /\
  (forall p, In p l -> moved t s s' p).
Proof.
  intros V N Q.
  apply (rfold_inv_nd (h_update_player cfg t) (fun pre s' =>
    good (pre ++ upd) s' /\ kept s s' /\ still s s' /\
    akeys (t_players s') = akeys (t_players s) /\ akeys (t_models s') = akeys (t_models s) /\
    m_seen (t_mem s') = m_seen (t_mem s) /\ t_time s' = t_time s /\ t_term s' = t_term s /\
    (forall q, ~ In q pre -> dget (t_models s') q = dget (t_models s) q) /\
    (forall p, In p pre -> moved t s s' p)) l [] s s'); [|exact N| |exact Q].
  - split; [exact V|]. split; [apply kept_refl|]. split; [apply still_refl|]. repeat split; try reflexivity. intros p [].
  - clear Q s'. intros pre x s1 s2 (G & C & T & K1 & K2 & Sn & Ti & Te & Fr & Mv) Nx _ Q.
    destruct (update_player_spec _ _ _ _ _ G Q) as (G' & C' & T' & K1' & K2' & Sn' & Ti' & Te' & Fr' & Mv').
    split. { eapply inv_weaken; [|exact G']. intros p I. cbn. rewrite !in_app_iff in I. cbn in I. rewrite in_app_iff. tauto. }
    split; [eapply kept_trans; eassumption|].
    split. { destruct T as [N1 R1], T' as [N2 R2]. split; [lia|]. intros r L Nr. rewrite R2; [|lia|rewrite Sn; exact Nr]. apply R1; assumption. }
    split; [congruence|]. split; [congruence|]. split; [congruence|]. split; [congruence|]. split; [congruence|].
    split. { intros q Nq. rewrite in_app_iff in Nq. rewrite Fr'; [apply Fr; tauto|]. intros ->. apply Nq. right; left; reflexivity. }
    intros p I. apply in_app_or in I as [I|[<-|[]]].
    + destruct (Mv p I) as (r & b & E & (u & r' & b' & E' & St) & (rl & Lg & Rl)).
      assert (Np : p <> x) by (intros ->; contradiction).
      exists r, b. split; [exact E|]. split.
      * exists u, r', b'. split; [rewrite Fr' by exact Np; exact E'|]. rewrite St. f_equal. f_equal. symmetry. apply T'; apply (i_models _ _ _ _ _ G _ _ _ E').
      * destruct (kept_logged _ _ _ _ _ _ G C' Lg) as [Lg' R']. exists rl. split; [exact Lg'|congruence].
    + destruct Mv' as (r & b & E & (u & r' & b' & E' & St) & (rl & Lg & Rl)).
      rewrite (Fr x Nx) in E.
      assert (Rr : m_x (t_mem s1) r = m_x (t_mem s) r) by (apply T; apply (i_models _ _ _ _ _ V _ _ _ E)).
      exists r, b. split; [exact E|]. split.
      * exists u, r', b'. split; [exact E'|]. rewrite <- Rr. exact St.
      * exists rl. split; [exact Lg|congruence].
Qed.

Lemma update_spec upd s s' : good upd s -> NoDup (akeys (t_players s)) -> h_update cfg s = Ok s' ->
  good (akeys (t_players s) ++ upd) s' /\ kept s s' /\ still s s' /\
  akeys (t_players s') = akeys (t_players s) /\ akeys (t_models s') = akeys (t_models s) /\
  m_seen (t_mem s') = m_seen (t_mem s) /\ t_time s' = t_time s /\ t_term s' = t_term s /\
  (forall q, ~ In q (akeys (t_players s)) -> dget (t_models s') q = dget (t_models s) q) /\
  (forall p, In p (akeys (t_players s)) -> moved (t_time s) s s' p).
Proof.
  intros V N Q. unfold h_update in Q.
  destruct (rfold (h_update_player cfg (t_time s)) s (akeys (t_players s))) as [s1|] eqn:E; [|discriminate].
  pose proof (update_fold_spec _ _ _ _ _ V N E) as S. destruct (h_need cfg s1); injection Q as <-; exact S.
Qed.

(** Observations. *)
Lemma pre_update_spec upd s s' : good upd s -> h_pre_update cfg s = Ok s' ->
  good upd s' /\ kept s s' /\ t_models s' = t_models s /\ t_players s' = t_players s /\ t_time s' = t_time s /\ t_term s' = t_term s /\
  t_logs s' = t_logs s /\ m_nx (t_mem s) <= m_nx (t_mem s') /\ (forall r, r < m_nx (t_mem s) -> m_x (t_mem s') r = m_x (t_mem s) r).
Proof.
  intros V Q. unfold h_pre_update in Q. destruct (h_need cfg s).
  2: { injection Q as <-. split; [exact V|]. split; [apply kept_refl|]. repeat split; reflexivity. }
  destruct (rfold h_observe (s, []) (akeys (t_players s))) as [[s1 obs]|] eqn:E; [|discriminate]. injection Q as <-.
  assert (P : let '(s1, _) := (s1, obs) in good upd s1 /\ kept s s1 /\ t_models s1 = t_models s /\ t_players s1 = t_players s /\ t_time s1 = t_time s /\ t_term s1 = t_term s /\
    t_logs s1 = t_logs s /\ m_nx (t_mem s) <= m_nx (t_mem s1) /\ (forall r, r < m_nx (t_mem s) -> m_x (t_mem s1) r = m_x (t_mem s) r)).
  { refine (rfold_inv' h_observe (fun a => let '(s1, _) := a in good upd s1 /\ kept s s1 /\ t_models s1 = t_models s /\ t_players s1 = t_players s /\ t_time s1 = t_time s /\ t_term s1 = t_term s /\
    t_logs s1 = t_logs s /\ m_nx (t_mem s) <= m_nx (t_mem s1) /\ (forall r, r < m_nx (t_mem s) -> m_x (t_mem s1) r = m_x (t_mem s) r)) _ (s, []) (s1, obs) _ _ E).
    - split; [exact V|]. split; [apply kept_refl|]. repeat split; reflexivity.
    - clear E s1 obs. intros p [sa oa] [sb ob] (G & C & P1 & P2 & P3 & P4 & P5 & P6 & P7) _ Q.
      unfold h_observe in Q. destruct (agetE Nat.eqb (t_models sa) p) as [[r b]|]; [|discriminate].
      unfold h_get_state, new_x in Q. injection Q as <- <-.
      destruct (inv_show _ _ _ _ _ (m_x (t_mem sa) r) G) as [G1 C1].
      split; [exact G1|]. split; [eapply kept_trans; [exact C|exact C1]|].
      split; [exact P1|]. split; [exact P2|]. split; [exact P3|]. split; [exact P4|]. split; [exact P5|].
      split; [cbn; lia|]. intros r1 L. cbn. rewrite put_other by lia. apply P7; exact L. }
  cbn iota in P. exact P.
Qed.

(** Leaving players. *)
Definition frame (s s' : hst H) : Prop :=
  akeys (t_models s') = akeys (t_models s) /\ NoDup (akeys (t_players s')) /\
  (forall p, In p (akeys (t_players s')) -> In p (akeys (t_players s))).
Lemma remove_spec upd s s' : good upd s -> NoDup (akeys (t_players s)) -> h_remove cfg s = Ok s' ->
  good upd s' /\ kept s s' /\ frame s s' /\ t_time s' = t_time s.
Proof.
  intros V N Q. unfold h_remove in Q.
  refine (rfold_inv' (h_remove1) (fun s' => good upd s' /\ kept s s' /\ frame s s' /\ t_time s' = t_time s) _ s s' _ _ Q).
  - split; [exact V|]. split; [apply kept_refl|]. split; [|reflexivity]. split; [reflexivity|]. split; [exact N|auto].
  - clear Q s'. intros [p g] s1 s2 (G & C & (F1 & F2 & F3) & Ti) _ Q. unfold h_remove1 in Q.
    destruct (dmem (t_players s1) p); [|injection Q as <-; split; [exact G|]; split; [exact C|]; split; [split; [exact F1|split; assumption]|exact Ti]].
    destruct (agetE Nat.eqb (t_models s1) p) as [[r b]|]; [|discriminate].
    unfold h_get_state in Q. destruct (new_x (t_mem s1) (m_x (t_mem s1) r)) as [mm r'] eqn:En.
    destruct (inv_new_x _ _ _ _ _ (m_x (t_mem s1) r) G) as (V0 & K0 & Y0 & Z0). rewrite En in *. cbn [fst] in *.
    assert (Nr : r' = m_nx (t_mem s1)) by (unfold new_x in En; congruence).
    assert (Nmm : m_nx mm = S (m_nx (t_mem s1)) /\ m_seen mm = m_seen (t_mem s1)) by (unfold new_x in En; injection En as <- _; split; reflexivity).
    destruct (h_goal H g (m_x (t_mem (st_mem s1 mm)) r') (t_time s1)) as [[|]|]; [| |discriminate].
    + destruct (h_logger (st_mem s1 mm) p (h_log_state (t_time (st_mem s1 mm)) r')) as [s3|] eqn:E3; [|discriminate].
      destruct (logger_Ok _ _ _ _ E3) as (l & l' & D1 & D2 & ->).
      unfold h_log_state in D2. destruct (b_add (k_states l) (t_time (st_mem s1 mm)) r') as [b'|] eqn:Eb; [|discriminate]. injection D2 as <-.
      apply b_add_Ok in Eb. injection Q as <-.
      destruct (inv_log m0 upd mm (t_models s1) (t_logs s1) p l b' _ r' V0 D1 Eb) as [V1 K1].
      { lia. } { rewrite (proj2 Nmm). intro I. apply (i_seen _ _ _ _ _ G) in I. lia. }
      { intros q bq Eq. apply (i_models _ _ _ _ _ G) in Eq. lia. }
      split; [exact V1|]. split. { eapply kept_trans; [exact C|]. unfold kept. eapply keeps_trans; [exact K0|exact K1]. }
      split; [|exact Ti]. split; [exact F1|]. split; [apply NoDup_ddel; exact F2|].
      intros q I. cbn in I. apply (In_keys_ddel _ _ _ F2) in I. apply F3. tauto.
    + injection Q as <-. split; [exact V0|]. split; [eapply kept_trans; [exact C|exact K0]|].
      split; [split; [exact F1|split; assumption]|exact Ti].
Qed.

(** Collisions. *)
Lemma check_env1_spec upd p s i s' : good upd s -> In p upd -> h_check_env1 cfg p s i = Ok s' ->
  good upd s' /\ kept s s' /\ t_players s' = t_players s /\ akeys (t_models s') = akeys (t_models s).
Proof.
  intros V Ip Q. unfold h_check_env1 in Q.
  destruct (agetE Nat.eqb (t_models s) p) as [[r b]|] eqn:Em; [|discriminate]. apply agetE_Ok in Em.
  destruct (item (h_obstacles H (hc_scen cfg)) i) as [ob|]; [|discriminate].
  destruct (h_resolve_env H p ob (t_time s) (m_x (t_mem s) r, b)) as [[x' b'] out].
  destruct (inv_write _ _ _ _ _ p r b x' b' V Em Ip) as [V1 K1].
  assert (Km : akeys (dset (t_models s) p (r, b')) = akeys (t_models s)) by (apply keys_dset; exact (dget_Some_In _ _ _ Em)).
  destruct (match out with Ok r => Ok r | Err CollisionException => Ok (Some (mkRep [p] (t_time s) None)) | Err e => Err e end) as [[rp|]|]; [| |discriminate].
  - destruct (h_is_dyn H (x', b')); injection Q as <-; (split; [exact V1|split; [exact K1|split; [reflexivity|exact Km]]]).
  - injection Q as <-; (split; [exact V1|split; [exact K1|split; [reflexivity|exact Km]]]).
Qed.

Lemma check_env_spec upd s s' : good upd s -> (forall p, In p (akeys (t_players s)) -> In p upd) -> h_check_env cfg s = Ok s' ->
  good upd s' /\ kept s s' /\ t_players s' = t_players s /\ akeys (t_models s') = akeys (t_models s).
Proof.
  intros V I Q. unfold h_check_env in Q.
  refine (rfold_inv' (h_check_env_player cfg) (fun s' => good upd s' /\ kept s s' /\ t_players s' = t_players s /\ akeys (t_models s') = akeys (t_models s)) _ s s' _ _ Q).
  - split; [exact V|]. split; [apply kept_refl|]. split; reflexivity.
  - clear Q s'. intros p s1 s2 (G & C & P & K) Ip Q. unfold h_check_env_player in Q.
    destruct (agetE Nat.eqb (t_models s1) p) as [[r b]|]; [|discriminate].
    refine (rfold_inv' (h_check_env1 cfg p) (fun s' => good upd s' /\ kept s s' /\ t_players s' = t_players s /\ akeys (t_models s') = akeys (t_models s)) _ s1 s2 _ _ Q).
    + exact (conj G (conj C (conj P K))).
    + clear Q s2. intros i s2 s3 (G2 & C2 & P2 & K2) _ Q.
      destruct (check_env1_spec upd p s2 i s3 G2 (I p Ip) Q) as (G3 & C3 & P3 & K3).
      split; [exact G3|]. split; [eapply kept_trans; eassumption|]. split; congruence.
Qed.

Lemma combinations2_in {C} (l : list C) x y : In (x, y) (combinations2 l) -> In x l /\ In y l.
Proof.
  induction l as [|a l IH]; cbn; [intros []|]. rewrite in_app_iff. intros [I|I].
  - apply in_map_iff in I as (z & E & I). injection E as <- <-. tauto.
  - apply IH in I. tauto.
Qed.
Lemma combinations2_neq {C} (l : list C) x y : NoDup l -> In (x, y) (combinations2 l) -> x <> y.
Proof.
  induction l as [|a l IH]; cbn; intros N; [intros []|]. inversion N as [|? ? N1 N2]; subst. rewrite in_app_iff. intros [I|I].
  - apply in_map_iff in I as (z & E & I). injection E as <- <-. intros ->; contradiction.
  - apply IH; assumption.
Qed.

Lemma check_pair_spec upd s p q s' : good upd s -> p <> q -> In p upd -> In q upd -> h_check_pair cfg s (p, q) = Ok s' ->
  good upd s' /\ kept s s' /\ t_players s' = t_players s /\ akeys (t_models s') = akeys (t_models s).
Proof.
  intros V Npq Ip Iq Q. unfold h_check_pair in Q.
  destruct (agetE Nat.eqb (t_models s) p) as [[ra ba]|] eqn:Ea; [|discriminate]. apply agetE_Ok in Ea.
  destruct (agetE Nat.eqb (t_models s) q) as [[rb bb]|] eqn:Eb; [|discriminate]. apply agetE_Ok in Eb.
  destruct (h_intersects H _ _).
  2: { injection Q as <-. split; [exact V|]. split; [apply kept_refl|]. split; reflexivity. }
  destruct (h_resolve H (hc_scen cfg) p q (t_time s) (m_x (t_mem s) ra, ba) (m_x (t_mem s) rb, bb)) as [[[xa ba'] [xb bb']] out].
  destruct (inv_write _ _ _ _ _ p ra ba xa ba' V Ea Ip) as [V1 K1].
  assert (Eb' : dget (dset (t_models s) p (ra, ba')) q = Some (rb, bb)) by (rewrite dget_dset_other by exact Npq; exact Eb).
  destruct (inv_write _ _ _ _ _ q rb bb xb bb' V1 Eb' Iq) as [V2 K2].
  assert (Km : akeys (dset (dset (t_models s) p (ra, ba')) q (rb, bb')) = akeys (t_models s)).
  { rewrite keys_dset; [apply keys_dset; exact (dget_Some_In _ _ _ Ea)|exact (dget_Some_In _ _ _ Eb')]. }
  pose proof (keeps_trans _ _ _ _ _ _ K1 K2) as K.
  destruct (match out with Ok r => Ok r | Err CollisionException => Ok (Some (mkRep [p; q] (t_time s) None)) | Err e => Err e end) as [[rp|]|]; [| |discriminate];
    injection Q as <-; (split; [exact V2|split; [exact K|split; [reflexivity|exact Km]]]).
Qed.

Lemma check_players_spec upd s s' : good upd s -> NoDup (akeys (t_players s)) -> (forall p, In p (akeys (t_players s)) -> In p upd) ->
  h_check_players cfg s = Ok s' ->
  good upd s' /\ kept s s' /\ t_players s' = t_players s /\ akeys (t_models s') = akeys (t_models s).
Proof.
  intros V N I Q. unfold h_check_players in Q.
  refine (rfold_inv' (h_check_pair cfg) (fun s' => good upd s' /\ kept s s' /\ t_players s' = t_players s /\ akeys (t_models s') = akeys (t_models s)) _ s s' _ _ Q).
  - split; [exact V|]. split; [apply kept_refl|]. split; reflexivity.
  - clear Q s'. intros [p q] s1 s2 (G & C & P & K) Ipq Q. pose proof (combinations2_in _ _ _ Ipq) as [I1 I2].
    destruct (check_pair_spec upd s1 p q s2 G (combinations2_neq _ _ _ N Ipq) (I p I1) (I q I2) Q) as (G3 & C3 & P3 & K3).
    split; [exact G3|]. split; [eapply kept_trans; eassumption|]. split; congruence.
Qed.

Lemma post_spec upd s s' : good upd s -> NoDup (akeys (t_players s)) -> (forall p, In p (akeys (t_players s)) -> In p upd) ->
  h_post_update cfg s = Ok s' -> good upd s' /\ kept s s' /\ frame s s'.
Proof.
  intros V N I Q. unfold h_post_update in Q.
  destruct (h_remove cfg (st_time s (t_time s + dt (hc_param cfg))%Qc)) as [s2|] eqn:E2; [|discriminate].
  destruct (remove_spec upd (st_time s (t_time s + dt (hc_param cfg))%Qc) s2 V N E2) as (G2 & C2 & (F1 & F2 & F3) & _).
  set (s3 := st_term s2 (h_termination cfg s2)) in *.
  destruct (t_term s3).
  - injection Q as <-. split; [exact G2|]. split; [exact C2|]. split; [exact F1|split; assumption].
  - destruct (h_check_env cfg s3) as [s4|] eqn:E4; [|discriminate].
    destruct (check_env_spec upd s3 s4 G2 (fun p Ip => I p (F3 p Ip)) E4) as (G4 & C4 & P4 & K4).
    change (t_players s3) with (t_players s2) in P4. change (t_models s3) with (t_models s2) in K4.
    destruct (check_players_spec upd s4 s' G4) as (G5 & C5 & P5 & K5); [rewrite P4; exact F2| |exact Q|].
    { intros p Ip. rewrite P4 in Ip. exact (I p (F3 p Ip)). }
    split; [exact G5|]. split; [eapply kept_trans; [exact C2|eapply kept_trans; [exact C4|exact C5]]|].
    split; [cbn in F1; congruence|]. rewrite P5, P4. split; [exact F2|exact F3].
Qed.

(** One iteration of the loop. *)
Lemma tick_spec upd s s' : good upd s -> NoDup (akeys (t_players s)) -> h_tick cfg s = Ok s' ->
  good (akeys (t_players s) ++ upd) s' /\ kept s s' /\ frame s s' /\
  (forall p, In p (akeys (t_players s)) -> exists r b rl, dget (t_models s) p = Some (r, b) /\
     logged s' p (t_time s) rl /\ m_x (t_mem s') rl = m_x (t_mem s) r).
Proof.
  intros V N Q. unfold h_tick in Q.
  destruct (h_pre_update cfg s) as [s1|] eqn:E1; [|discriminate].
  destruct (pre_update_spec _ _ _ V E1) as (G1 & C1 & Md & Pl & Ti & _ & _ & Nx & Rd).
  destruct (h_update cfg s1) as [s2|] eqn:E2; [|discriminate].
  destruct (update_spec _ _ _ G1 ltac:(rewrite Pl; exact N) E2) as (G2 & C2 & _ & K1 & K2 & _ & _ & _ & _ & Mv).
  rewrite Pl in *.
  destruct (post_spec _ _ _ G2 ltac:(rewrite K1; exact N) ltac:(intros p I; rewrite K1 in I; apply in_or_app; left; exact I) Q) as (G3 & C3 & F1 & F2 & F3).
  split; [exact G3|]. split; [eapply kept_trans; [exact C1|eapply kept_trans; [exact C2|exact C3]]|].
  split. { split; [congruence|]. split; [exact F2|]. intros p I. apply F3 in I. congruence. }
  intros p I. destruct (Mv p I) as (r & b & E & _ & (rl & Lg & Rl)). rewrite Ti in Lg.
  destruct (kept_logged _ _ _ _ _ _ G2 C3 Lg) as [Lg' R'].
  rewrite Md in E. exists r, b, rl. split; [exact E|]. split; [exact Lg'|].
  rewrite R', Rl. apply Rd. apply (i_models _ _ _ _ _ V _ _ _ E).
Qed.
End Prog.
