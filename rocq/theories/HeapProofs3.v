(** The program with references, read through its references, is the
    simulator of SimulatorModel. *)
From Coq Require Import QArith Qcanon List Bool Arith Lia.
From Verif Require Import Base Num SeqModel SimulatorModel DictLemmas HeapModel HeapSpec HeapProofs HeapProofs2.
Import ListNotations.
Open Scope nat_scope.

(** Dicts. *)
Lemma dget_dmap {V V'} (f : V -> V') d k : dget (dmap f d) k = option_map f (dget d k).
Proof.
  induction d as [|[k' v] d IH]; [reflexivity|]. change (dmap f ((k', v) :: d)) with ((k', f v) :: dmap f d).
  rewrite !dget_cons. destruct (Nat.eqb k' k); [reflexivity|exact IH].
Qed.
Lemma dgetE_dmap {V V'} (f : V -> V') d k : dgetE (dmap f d) k = rmap f (dgetE d k).
Proof. unfold agetE. rewrite dget_dmap. destruct (dget d k); reflexivity. Qed.
Lemma akeys_dmap {V V'} (f : V -> V') d : akeys (dmap f d) = akeys d.
Proof. unfold akeys, dmap. rewrite map_map. reflexivity. Qed.
Lemma dset_dmap {V V'} (f : V -> V') d k v : dset (dmap f d) k (f v) = dmap f (dset d k v).
Proof.
  induction d as [|[k' v'] d IH]; [reflexivity|]. change (dmap f ((k', v') :: d)) with ((k', f v') :: dmap f d).
  unfold aset; fold (aset (V:=V') Nat.eqb); fold (aset (V:=V) Nat.eqb). destruct (Nat.eqb k' k); [reflexivity|]. cbn. rewrite IH. reflexivity.
Qed.
Lemma dmap_ext {V V'} (f g : V -> V') d : (forall k v, In (k, v) d -> f v = g v) -> dmap f d = dmap g d.
Proof. intro E. apply map_ext_in. intros [k v] I. cbn. rewrite (E k v I). reflexivity. Qed.
Lemma In_dget {V} (d : list (player * V)) k v : NoDup (akeys d) -> In (k, v) d -> dget d k = Some v.
Proof.
  induction d as [|[k' v'] d IH]; [intros _ []|]. intros N I. change (akeys ((k', v') :: d)) with (k' :: akeys d) in N.
  inversion N as [|? ? N1 N2]; subst. rewrite dget_cons. destruct I as [E|I].
  - injection E as -> ->. rewrite Nat.eqb_refl. reflexivity.
  - destruct (Nat.eqb_spec k' k) as [->|Nk]; [|apply IH; assumption].
    exfalso. apply N1. apply (in_map fst) in I. exact I.
Qed.
Lemma dget_In' {V} (d : list (player * V)) k v : dget d k = Some v -> In (k, v) d.
Proof.
  induction d as [|[k' v'] d IH]; [discriminate|]. rewrite dget_cons. destruct (Nat.eqb_spec k' k) as [->|N].
  - intro E; injection E as ->. left; reflexivity.
  - intro E. right. apply IH; exact E.
Qed.
Lemma In_dset {V} (d : list (player * V)) k v k' v' : In (k', v') (dset d k v) -> (k' = k /\ v' = v) \/ In (k', v') d.
Proof.
  induction d as [|[k2 v2] d IH]; unfold aset; fold (aset (V:=V) Nat.eqb).
  - intros [E|[]]. injection E as <- <-. left; split; reflexivity.
  - destruct (Nat.eqb_spec k2 k) as [->|N]; intros [E|I].
    + injection E as <- <-. left; split; reflexivity.
    + right; right; exact I.
    + right; left; exact E.
    + destruct (IH I) as [E|I']; [left; exact E|right; right; exact I'].
Qed.

Lemma dmap_cons {V V'} (f : V -> V') k v d : dmap f ((k, v) :: d) = (k, f v) :: dmap f d.
Proof. reflexivity. Qed.
Arguments dmap : simpl never.
Section Refine.
Context (H : hworld).
Notation X := (h_X H). Notation U := (h_U H). Notation B := (h_B H).
Context (cmds : h_A H -> simobs X (h_F H) -> result (h_A H * U))
        (extra : h_A H -> result (h_A H * option (h_E H)))
        (sense_ : h_S H -> h_scen H -> simobs X (h_F H) -> player -> result (h_S H * simobs X (h_F H))).
Context (cfg : hconfig H) (m0 : memory X U).
Context (WM : well_mannered H cmds extra sense_ m0).
Notation W := (values H cmds extra sense_).

Definition V (s : hst H) (e : list (event W)) : st W :=
  @mkSt W (read_ctx H cmds extra sense_ cfg s) (read_sim H cmds extra sense_ s) e.

Record ok (upd : list player) (s : hst H) : Prop := {
  o_good : good m0 upd s;
  o_old : keeps_old m0 (t_mem s);
  o_keys : NoDup (akeys (t_models s));
  o_pkeys : NoDup (akeys (t_players s));
  o_lkeys : NoDup (akeys (t_logs s));
  o_obs : forall p r f, In (p, (r, f)) (o_players (t_obs s)) -> In r (m_seen (t_mem s));
  o_cmds : forall p r, In (p, r) (t_cmds s) -> r < m_nu (t_mem s);
  o_lcmds : forall p l r, In (p, l) (t_logs s) -> In r (b_vs (k_commands l)) -> r < m_nu (t_mem s);
  o_log : t_log s = [] }.

Definition corr (upd : list player) (r : result (hst H)) (r' : result (st W)) : Prop :=
  match r, r' with
  | Ok s, Ok v => ok upd s /\ exists e, v = V s e
  | Err e, Err e' => e = e'
  | _, _ => False
  end.

Lemma ok_weaken upd upd' s : (forall p, In p upd' -> In p upd) -> ok upd s -> ok upd' s.
Proof. intros S [G O1 O2 O3 O4 O5 O6 O7 O8]. constructor; try assumption. eapply inv_weaken; eassumption. Qed.

Lemma corr_fold {A} (f : hst H -> A -> result (hst H)) (g : st W -> A -> result (st W)) upd l :
  (forall s e x, In x l -> ok upd s -> corr upd (f s x) (g (V s e) x)) ->
  forall s e, ok upd s -> corr upd (rfold f s l) (rfold g (V s e) l).
Proof.
  induction l as [|x l IH]; intros P s e O; cbn [rfold].
  - split; [exact O|]. exists e; reflexivity.
  - pose proof (P s e x (or_introl eq_refl) O) as Q. destruct (f s x) as [s1|e1], (g (V s e) x) as [v1|e2]; cbn in Q; try contradiction.
    + destruct Q as (O1 & e' & ->). apply IH; [|exact O1]. intros s2 e2 y I. apply P. right; exact I.
    + subst. reflexivity.
Qed.
Lemma corr_fold_upd (f : hst H -> player -> result (hst H)) (g : st W -> player -> result (st W)) l :
  (forall upd s e x, In x l -> ok upd s -> corr (x :: upd) (f s x) (g (V s e) x)) ->
  forall upd s e, ok upd s -> corr (l ++ upd) (rfold f s l) (rfold g (V s e) l).
Proof.
  induction l as [|x l IH]; intros P upd s e O; cbn [rfold].
  - split; [exact O|]. exists e; reflexivity.
  - pose proof (P upd s e x (or_introl eq_refl) O) as Q. destruct (f s x) as [s1|e1], (g (V s e) x) as [v1|e2]; cbn in Q; try contradiction.
    + destruct Q as (O1 & e' & ->).
      assert (Q : corr (l ++ x :: upd) (rfold f s1 l) (rfold g (V s1 e') l)) by (apply IH; [|exact O1]; intros; apply P; [right; assumption|assumption]).
      destruct (rfold f s1 l), (rfold g (V s1 e') l); cbn in *; try assumption. destruct Q as [O2 E]. split; [|exact E].
      eapply ok_weaken; [|exact O2]. intros p I. cbn in I. rewrite in_app_iff in *. cbn. tauto.
    + subst. reflexivity.
Qed.

(** Reading depends on the objects in use only. *)
Definition agree (m m' : memory X U) : Prop :=
  (forall r, r < m_nx m -> m_x m' r = m_x m r) /\ (forall r, r < m_nu m -> m_u m' r = m_u m r).
Lemma read_builder_ext {Vt} (f g : nat -> Vt) b : (forall r, In r (b_vs b) -> f r = g r) -> read_builder f b = read_builder g b.
Proof. intro E. unfold read_builder. f_equal. apply map_ext_in. exact E. Qed.
Lemma read_logger_ext m m' l :
  (forall r, In r (b_vs (k_states l)) -> m_x m' r = m_x m r) -> (forall r, In r (b_vs (k_commands l)) -> m_u m' r = m_u m r) ->
  read_logger H cmds extra sense_ m' l = read_logger H cmds extra sense_ m l.
Proof. intros E1 E2. unfold read_logger. rewrite (read_builder_ext (m_x m') (m_x m)), (read_builder_ext (m_u m') (m_u m)) by assumption. reflexivity. Qed.

Lemma obs_small upd s p r f : ok upd s -> In (p, (r, f)) (o_players (t_obs s)) -> r < m_nx (t_mem s).
Proof. intros O I. apply (i_seen _ _ _ _ _ (o_good _ _ O)). eapply o_obs; eassumption. Qed.
Lemma model_small upd s p r b : ok upd s -> In (p, (r, b)) (t_models s) -> r < m_nx (t_mem s) /\ ~ In r (m_seen (t_mem s)).
Proof. intros O I. apply (i_models _ _ _ _ _ (o_good _ _ O) p r b). apply In_dget; [apply O|exact I]. Qed.
Lemma log_small upd s p l r : ok upd s -> In (p, l) (t_logs s) -> In r (b_vs (k_states l)) ->
  r < m_nx (t_mem s) /\ ~ In r (m_seen (t_mem s)) /\ forall q b, dget (t_models s) q <> Some (r, b).
Proof. intros O I Ir. apply (i_logs _ _ _ _ _ (o_good _ _ O) p l); [apply In_dget; [apply O|exact I]|exact Ir]. Qed.

Lemma read_sim_ext upd s m' :
  ok upd s -> (forall r, In r (m_seen (t_mem s)) -> m_x m' r = m_x (t_mem s) r) ->
  (forall p l r, In (p, l) (t_logs s) -> In r (b_vs (k_states l)) -> m_x m' r = m_x (t_mem s) r) ->
  (forall r, r < m_nu (t_mem s) -> m_u m' r = m_u (t_mem s) r) ->
  read_sim H cmds extra sense_ (st_mem s m') = read_sim H cmds extra sense_ s.
Proof.
  intros O E1 E2 E3. unfold read_sim. cbn. f_equal.
  - unfold read_obs. f_equal. apply dmap_ext. intros k [r f] I. cbn. rewrite E1; [reflexivity|]. eapply o_obs; eassumption.
  - apply dmap_ext. intros k r I. apply E3. eapply o_cmds; eassumption.
  - apply dmap_ext. intros k l I. apply read_logger_ext; [intros r Ir; eapply E2; eassumption|]. intros r Ir. apply E3. eapply o_lcmds; eassumption.
Qed.
Lemma V_mem upd s m' e : ok upd s -> agree (t_mem s) m' -> V (st_mem s m') e = V s e.
Proof.
  intros O [A1 A2]. unfold V.
  rewrite (read_sim_ext upd s m' O); [|intros r I; apply A1; apply (i_seen _ _ _ _ _ (o_good _ _ O)); exact I|intros p l r I Ir; apply A1; apply (log_small _ _ _ _ _ O I Ir)|exact A2].
  f_equal. unfold read_ctx. cbn. rewrite (o_log _ _ O). f_equal. unfold read_models. cbn. apply dmap_ext. intros k [r b] I. cbn.
  rewrite A1; [reflexivity|]. apply (model_small _ _ _ _ _ O I).
Qed.

Lemma V_parts upd s m' : ok upd s -> agree (t_mem s) m' ->
  dmap (fun rb => (m_x m' (fst rb), snd rb)) (t_models s) = read_models H s /\
  dmap (read_plog H cmds extra sense_ m') (t_log s) = dmap (read_plog H cmds extra sense_ (t_mem s)) (t_log s) /\
  read_obs m' (t_obs s) = read_obs (t_mem s) (t_obs s) /\
  dmap (m_u m') (t_cmds s) = dmap (m_u (t_mem s)) (t_cmds s) /\
  dmap (read_logger H cmds extra sense_ m') (t_logs s) = dmap (read_logger H cmds extra sense_ (t_mem s)) (t_logs s).
Proof.
  intros O AG. pose proof AG as [A1 A2]. split; [|split; [|split; [|split]]].
  - apply dmap_ext. intros k [r b] I. cbn. rewrite A1; [reflexivity|]. apply (model_small _ _ _ _ _ O I).
  - rewrite (o_log _ _ O). reflexivity.
  - unfold read_obs. f_equal. apply dmap_ext. intros k [r f] I. cbn. rewrite A1; [reflexivity|]. eapply obs_small; eassumption.
  - apply dmap_ext. intros k r I. apply A2. eapply o_cmds; eassumption.
  - apply dmap_ext. intros k l I. apply read_logger_ext; intros r Ir; [apply A1; apply (log_small _ _ _ _ _ O I Ir)|apply A2; eapply o_lcmds; eassumption].
Qed.

(** A new state object. *)
Lemma agree_new_x (m : memory X U) x : agree m (fst (new_x m x)).
Proof. split; cbn; [intros r L; apply put_other; lia|reflexivity]. Qed.
Lemma agree_new_u (m : memory X U) u : agree m (fst (new_u m u)).
Proof. split; cbn; [reflexivity|intros r L; apply put_other; lia]. Qed.
Lemma old_agree m m' : m_nx m <= m_nx m' -> m_nu m <= m_nu m' -> keeps_old m0 m -> agree m m' -> keeps_old m0 m'.
Proof.
  intros L1 L2 (O1 & O2 & O3 & O4) [A1 A2]. split; [lia|]. split; [lia|]. split; intros r L.
  - rewrite A1 by lia. apply O3; exact L.
  - rewrite A2 by lia. apply O4; exact L.
Qed.
Lemma ok_new_x upd s x : ok upd s -> ok upd (st_mem s (fst (new_x (t_mem s) x))).
Proof.
  intros [G O1 O2 O3 O4 O5 O6 O7 O8]. constructor; try assumption.
  - apply (inv_new_x _ _ _ _ _ x G).
  - eapply old_agree; [| |exact O1|apply agree_new_x]; cbn; lia.
Qed.

(** Agents that only make new objects. *)
Lemma exec_new is : forall m : memory X U, Forall is_new is ->
  m_nx (exec m is) = m_nx m /\ m_nu m <= m_nu (exec m is) /\ m_seen (exec m is) = m_seen m /\ agree m (exec m is).
Proof.
  unfold exec. induction is as [|i is IH]; intros m F; cbn [fold_left]; [repeat split; auto|].
  inversion F as [|? ? F1 F2]; subst. destruct i as [u|r u|r x]; try contradiction. cbn [exec1].
  destruct (IH (fst (new_u m u)) F2) as (A1 & A2 & A3 & A4 & A5). rewrite A1, A3. cbn in *.
  split; [reflexivity|]. split; [lia|]. split; [reflexivity|]. split; intros r L.
  - apply A4; exact L.
  - rewrite A5 by lia. apply put_other; lia.
Qed.
Lemma ok_mem_u upd s m' : ok upd s -> inv m0 upd m' (t_models s) (t_logs s) -> m_nx m' = m_nx (t_mem s) -> m_nu (t_mem s) <= m_nu m' ->
  m_seen m' = m_seen (t_mem s) -> agree (t_mem s) m' -> ok upd (st_mem s m').
Proof.
  intros [G O1 O2 O3 O4 O5 O6 O7 O8] G' L1 L2 S A. constructor; try assumption; cbn.
  - eapply old_agree; [| |exact O1|exact A]; lia.
  - rewrite S; exact O5.
  - intros p r I. specialize (O6 p r I). lia.
  - intros p l r I Ir. specialize (O7 p l r I Ir). lia.
Qed.

(** Loggers. *)
Lemma b_add_read {Vt} (f : nat -> Vt) b t r : b_add (read_builder f b) t (f r) = rmap (read_builder f) (b_add b t r).
Proof.
  unfold b_add, read_builder. cbn. destruct (rev (b_ts b)) as [|q ?]; cbn; [rewrite map_app; reflexivity|].
  destruct (qleb t q); cbn; [reflexivity|rewrite map_app; reflexivity].
Qed.
Lemma corr_logger upd s e p f g : ok upd s ->
  (forall l, dget (t_logs s) p = Some l -> g (read_logger H cmds extra sense_ (t_mem s) l) = rmap (read_logger H cmds extra sense_ (t_mem s)) (f l)) ->
  (forall l l', dget (t_logs s) p = Some l -> f l = Ok l' -> ok upd (st_logs s (dset (t_logs s) p l'))) ->
  corr upd (h_logger s p f) (with_logger (V s e) p g).
Proof.
  intros O E1 E2. unfold h_logger, with_logger. cbn [V sm s_logs read_sim]. rewrite dgetE_dmap. unfold agetE.
  destruct (dget (t_logs s) p) as [l|] eqn:D; cbn [rmap]; [|reflexivity]. rewrite (E1 l eq_refl).
  destruct (f l) as [l'|e1] eqn:F; cbn [rmap]; [|reflexivity].
  split; [exact (E2 l l' eq_refl F)|]. exists e. unfold upd_sm, set_logs, V. cbn [cx sm ev s_obs s_last s_cmds s_logs read_sim].
  rewrite dset_dmap. reflexivity.
Qed.
Lemma ok_logs upd s p l l' : ok upd s -> dget (t_logs s) p = Some l ->
  inv m0 upd (t_mem s) (t_models s) (dset (t_logs s) p l') ->
  (forall r, In r (b_vs (k_commands l')) -> In r (b_vs (k_commands l)) \/ r < m_nu (t_mem s)) ->
  ok upd (st_logs s (dset (t_logs s) p l')).
Proof.
  intros [G O1 O2 O3 O4 O5 O6 O7 O8] D G' C. constructor; try assumption; cbn.
  - apply NoDup_dset; exact O4.
  - intros q lq r I Ir. apply In_dset in I as [[-> ->]|I]; [|exact (O7 _ _ _ I Ir)].
    destruct (C r Ir) as [Ir'|L]; [|exact L]. exact (O7 p l r (dget_In' _ _ _ D) Ir').
Qed.
Lemma corr_log_state upd s e p t r : ok upd s -> r < m_nx (t_mem s) -> ~ In r (m_seen (t_mem s)) ->
  (forall q b, dget (t_models s) q <> Some (r, b)) ->
  corr upd (h_logger s p (h_log_state t r)) (with_logger (V s e) p (log_state (W:=W) t (m_x (t_mem s) r))).
Proof.
  intros O L N Q. apply corr_logger; [exact O| |].
  - intros l D. unfold log_state, h_log_state. unfold read_logger at 1. cbn [lg_states]. rewrite b_add_read.
    destruct (b_add (k_states l) t r) as [b|]; reflexivity.
  - intros l l' D F. unfold h_log_state in F. destruct (b_add (k_states l) t r) as [b|] eqn:Eb; [|discriminate]. injection F as <-.
    apply b_add_Ok in Eb. eapply ok_logs; [exact O|exact D| |cbn; auto].
    apply (proj1 (inv_log _ _ _ _ _ p l b t r (o_good _ _ O) D Eb L N Q)).
Qed.

(** An agent's turn. *)
Lemma corr_ask upd s e p t : ok upd s -> corr upd (h_ask cfg s p t) (ask (V s e) p t).
Proof.
  intro O. destruct WM as (WA & WE & WS). unfold h_ask, ask.
  change (get_sensor (cx (V s e)) p) with (h_sensor cfg s p).
  destruct (h_sensor cfg s p) as [f|]; [|reflexivity].
  cbn [V cx sm c_cfg g_scen read_ctx read_cfg s_obs read_sim c_players c_sensors].
  pose proof (WS f (hc_scen cfg) (t_obs s) (t_mem s) p (o_old _ _ O)) as HS.
  change (sense W) with sense_. change (agent_cmds W) with cmds. change (agent_extra W) with extra. change (cpu_time W) with (h_cpu H).
  destruct (h_sense H f (hc_scen cfg) (t_obs s) (t_mem s) p) as [[f1 o1]|e1], (sense_ f (hc_scen cfg) (read_obs (t_mem s) (t_obs s)) p) as [[f2 o2]|e2]; try contradiction; [|exact HS].
  destruct HS as [<- <-].
  change (w_A W) with (h_A H). destruct (agetE Nat.eqb (t_players s) p) as [a|e3] eqn:Ea; [|reflexivity]. apply agetE_Ok in Ea.
  pose proof (WA a o1 (t_mem s) (o_old _ _ O)) as HA.
  destruct (h_agent H a o1 (t_mem s)) as [[[a1 is] c]|e1]; [|destruct (cmds a (read_obs (t_mem s) o1)) as [[? ?]|]; [contradiction|exact HA]].
  destruct (cmds a (read_obs (t_mem s) o1)) as [[a2 u]|]; [|destruct c; contradiction].
  assert (HA' : exists m1 r, returned (exec (t_mem s) is) c = Ok (m1, r) /\ a1 = a2 /\ ok upd (st_mem s m1) /\
     agree (t_mem s) m1 /\ r < m_nu m1 /\ m_u m1 r = u /\ m_nx m1 = m_nx (t_mem s) /\ m_seen m1 = m_seen (t_mem s)).
  { destruct c as [u'|r]; cbn [returned].
    - destruct HA as (-> & F & ->). destruct (exec_new is (t_mem s) F) as (A1 & A2 & A3 & A4).
      assert (AG : agree (t_mem s) (fst (new_u (exec (t_mem s) is) u))).
      { destruct A4 as [B1 B2]. split; [exact B1|]. intros r L. cbn. rewrite put_other by lia. apply B2; exact L. }
      eexists _, _. split; [reflexivity|]. split; [reflexivity|]. split.
      { apply ok_mem_u; [exact O| |exact A1|cbn; lia|exact A3|exact AG].
        apply inv_u. apply (proj1 (inv_exec _ _ _ _ _ is (o_good _ _ O))). }
      split; [exact AG|]. cbn. split; [lia|]. split; [apply put_same|]. split; assumption.
    - destruct HA as (-> & F & L & U0). destruct (exec_new is (t_mem s) F) as (A1 & A2 & A3 & A4).
      pose proof (o_old _ _ O) as (P1 & P2 & P3 & P4).
      assert (Lr : r < m_nu (exec (t_mem s) is)) by lia. rewrite (proj2 (Nat.ltb_lt _ _) Lr).
      eexists _, _. split; [reflexivity|]. split; [reflexivity|]. split.
      { apply ok_mem_u; [exact O| |exact A1|exact A2|exact A3|exact A4]. apply (proj1 (inv_exec _ _ _ _ _ is (o_good _ _ O))). }
      split; [exact A4|]. split; [exact Lr|]. split; [|split; assumption]. rewrite (proj2 A4) by lia. rewrite P4 by exact L. exact U0. }
  destruct HA' as (m1 & r & -> & <- & O1 & AG & Lr & Ur & Nx & Sn).
  set (s1 := st_cmds (st_players (st_sensors (st_mem s m1) (dset (t_sensors s) p f1)) (dset (t_players s) p a1)) (dset (t_cmds s) p r)).
  assert (O2 : ok upd s1).
  { destruct O1 as [G B1 B2 B3 B4 B5 B6 B7 B8]. constructor; try assumption.
    - cbn. rewrite keys_dset; [exact B3|exact (dget_Some_In _ _ _ Ea)].
    - cbn. intros q rq I. apply In_dset in I as [[-> ->]|I]; [exact Lr|exact (B6 _ _ I)]. }
  match goal with |- corr _ _ (match with_logger ?v _ _ with _ => _ end) => assert (EV : exists e', v = V s1 e') end.
  { eexists. destruct (V_parts upd s m1 O AG) as (P1 & P2 & P3 & P4 & P5).
    unfold V, s1, read_ctx, read_sim, set_players, set_sensors, set_cmds. cbn. unfold read_models at 2. cbn. rewrite P1, P2, P3, P5.
    rewrite <- (dset_dmap (m_u m1) (t_cmds s) p r), P4, Ur. reflexivity. }
  destruct EV as [e1 ->].
  assert (L1 : corr upd (h_logger s1 p (h_log_command t r)) (with_logger (V s1 e1) p (log_command (W:=W) t u))).
  { apply corr_logger; [exact O2| |].
    - intros l D. unfold log_command, h_log_command. unfold read_logger at 1. cbn [lg_commands].
      change (t_mem s1) with m1. rewrite <- Ur. rewrite b_add_read.
      destruct (b_add (k_commands l) t r) as [b|]; reflexivity.
    - intros l l' D F. unfold h_log_command in F. destruct (b_add (k_commands l) t r) as [b|] eqn:Eb; [|discriminate]. injection F as <-.
      apply b_add_Ok in Eb. eapply ok_logs; [exact O2|exact D| |].
      + refine (proj1 (inv_log_other _ _ _ _ _ p l _ (o_good _ _ O2) D _)); reflexivity.
      + subst b. cbn. intros r1 I. apply in_app_or in I as [I|[<-|[]]]; [left; exact I|right; exact Lr]. }
  destruct (h_logger s1 p (h_log_command t r)) as [s2|], (with_logger (V s1 e1) p (log_command (W:=W) t u)) as [v2|]; cbn [corr] in L1; try contradiction; [|exact L1].
  destruct L1 as (O3 & e2 & ->).
  assert (L2 : corr upd (h_logger s2 p (h_log_info t (h_cpu H p t))) (with_logger (V s2 e2) p (log_info (W:=W) t (h_cpu H p t)))).
  { apply corr_logger; [exact O3| |].
    - intros l D. unfold log_info, h_log_info. unfold read_logger at 1. cbn [lg_info]. change (w_I W) with (h_I H). destruct (b_add (k_info l) t (h_cpu H p t)) as [b|]; reflexivity.
    - intros l l' D F. unfold h_log_info in F. destruct (b_add (k_info l) t (h_cpu H p t)) as [b|] eqn:Eb; [|discriminate]. injection F as <-.
      eapply ok_logs; [exact O3|exact D| |cbn; auto]. refine (proj1 (inv_log_other _ _ _ _ _ p l _ (o_good _ _ O3) D _)); reflexivity. }
  destruct (h_logger s2 p (h_log_info t (h_cpu H p t))) as [s3|], (with_logger (V s2 e2) p (log_info (W:=W) t (h_cpu H p t))) as [v3|]; cbn [corr] in L2; try contradiction; [|exact L2].
  destruct L2 as (O4 & e3 & ->).
  pose proof (WE a1 (t_mem s3) (o_old _ _ O4)) as HE.
  destruct (h_extra H a1 (t_mem s3)) as [[[a3 is'] x1]|], (extra a1) as [[a4 x2]|]; try contradiction; [|exact HE].
  destruct HE as (<- & F & <-). destruct (exec_new is' (t_mem s3) F) as (A1 & A2 & A3 & A4).
  assert (O5 : ok upd (st_mem s3 (exec (t_mem s3) is'))).
  { apply ok_mem_u; [exact O4| |exact A1|exact A2|exact A3|exact A4]. apply (proj1 (inv_exec _ _ _ _ _ is' (o_good _ _ O4))). }
  set (s4 := st_players (st_mem s3 (exec (t_mem s3) is')) (dset (t_players s3) p a3)).
  assert (O6 : ok upd s4).
  { destruct O5 as [G B1 B2 B3 B4 B5 B6 B7 B8]. constructor; try assumption. cbn. apply NoDup_dset; exact B3. }
  assert (EV4 : upd_cx (V s3 e3) (set_players (cx (V s3 e3)) (dset (c_players (cx (V s3 e3))) p a3)) = V s4 e3).
  { rewrite <- (V_mem upd s3 _ e3 O4 A4). reflexivity. }
  match goal with |- context [upd_cx (V s3 e3) ?c] => replace (upd_cx (V s3 e3) c) with (V s4 e3) by (symmetry; exact EV4) end. destruct x1 as [x|].
  - apply corr_logger; [exact O6| |].
    + intros l D. unfold log_extra, h_log_extra. unfold read_logger at 1. cbn [lg_extra]. change (w_E W) with (h_E H). destruct (b_add (k_extra l) t x) as [b|]; reflexivity.
    + intros l l' D F'. unfold h_log_extra in F'. destruct (b_add (k_extra l) t x) as [b|] eqn:Eb; [|discriminate]. injection F' as <-.
      eapply ok_logs; [exact O6|exact D| |cbn; auto]. refine (proj1 (inv_log_other _ _ _ _ _ p l _ (o_good _ _ O6) D _)); reflexivity.
  - split; [exact O6|]. exists e3; reflexivity.
Qed.

(** One player's turn in update. *)
Lemma corr_update_player t upd s e p : ok upd s -> corr (p :: upd) (h_update_player cfg t s p) (update_player t (V s e) p).
Proof.
  intro O. unfold h_update_player, update_player. cbn [V cx c_models read_ctx]. unfold read_models. rewrite dgetE_dmap.
  destruct (agetE Nat.eqb (t_models s) p) as [[r0 b0]|] eqn:Em; cbn [rmap]; [|reflexivity]. apply agetE_Ok in Em.
  cbn [fst snd]. unfold h_get_state. destruct (new_x (t_mem s) (m_x (t_mem s) r0)) as [mm rl] eqn:En.
  assert (Emm : mm = fst (new_x (t_mem s) (m_x (t_mem s) r0))) by (rewrite En; reflexivity).
  assert (Erl : rl = m_nx (t_mem s)) by (unfold new_x in En; congruence).
  pose proof (ok_new_x upd s (m_x (t_mem s) r0) O) as O1. rewrite <- Emm in O1.
  assert (AG : agree (t_mem s) mm) by (rewrite Emm; apply agree_new_x).
  assert (Rl : m_x mm rl = m_x (t_mem s) r0) by (rewrite Emm, Erl; cbn; apply put_same).
  change (mkSt (read_ctx H cmds extra sense_ cfg s) (read_sim H cmds extra sense_ s) e) with (V s e).
  rewrite <- (V_mem upd s mm e O AG). set (s0 := st_mem s mm) in *.
  change (get_state W (m_x (t_mem s) r0, b0)) with (m_x (t_mem s) r0). rewrite <- Rl. change (m_x mm rl) with (m_x (t_mem s0) rl).
  assert (L1 : corr upd (h_logger s0 p (h_log_state t rl)) (with_logger (V s0 e) p (log_state (W:=W) t (m_x (t_mem s0) rl)))).
  { apply corr_log_state; [exact O1| | |].
    - cbn. rewrite Emm, Erl. cbn. lia.
    - cbn. rewrite Emm, Erl. cbn. intro I. apply (i_seen _ _ _ _ _ (o_good _ _ O)) in I. lia.
    - cbn. intros q b E. rewrite Erl in E. apply (i_models _ _ _ _ _ (o_good _ _ O)) in E. lia. }
  destruct (h_logger s0 p (h_log_state t rl)) as [s1|] eqn:E1, (with_logger (V s0 e) p (log_state (W:=W) t (m_x (t_mem s0) rl))) as [v1|]; cbn [corr] in L1; try contradiction; [|exact L1].
  destruct L1 as (O2 & e1 & ->).
  assert (M1 : t_models s1 = t_models s). { destruct (logger_Ok _ _ _ _ E1) as (? & ? & _ & _ & ->). reflexivity. }
  change (need_commands (V s1 e1)) with (h_need cfg s1).
  assert (L2 : corr upd (if h_need cfg s1 then h_ask cfg s1 p t else Ok s1) (if h_need cfg s1 then ask (V s1 e1) p t else Ok (V s1 e1))).
  { destruct (h_need cfg s1); [apply corr_ask; exact O2|]. split; [exact O2|exists e1; reflexivity]. }
  assert (M2 : forall s2, (if h_need cfg s1 then h_ask cfg s1 p t else Ok s1) = Ok s2 -> t_models s2 = t_models s1).
  { intros s2 E. destruct (h_need cfg s1); [|injection E as <-; reflexivity].
    apply (ask_spec cfg m0 upd _ _ _ _ (o_good _ _ O2) E). }
  destruct (if h_need cfg s1 then h_ask cfg s1 p t else Ok s1) as [s2|], (if h_need cfg s1 then ask (V s1 e1) p t else Ok (V s1 e1)) as [v2|]; cbn [corr] in L2; try contradiction; [|exact L2].
  destruct L2 as (O3 & e2 & ->). specialize (M2 s2 eq_refl).
  cbn [V sm s_cmds read_sim cx c_models read_ctx]. unfold read_models. rewrite !dgetE_dmap.
  destruct (agetE Nat.eqb (t_cmds s2) p) as [ru|]; cbn [rmap]; [|reflexivity].
  rewrite M2, M1. unfold agetE. rewrite Em. cbn [rmap fst snd].
  change (model_step W) with (h_step H). change (dt (param (V s2 e2))) with (dt (hc_param cfg)).
  destruct (h_step H (m_x (t_mem s2) r0, b0) (m_u (t_mem s2) ru) (dt (hc_param cfg))) as [[x' b']|]; [|reflexivity].
  destruct (new_x (t_mem s2) x') as [m' r'] eqn:En2.
  assert (Em' : m' = fst (new_x (t_mem s2) x')) by (rewrite En2; reflexivity).
  assert (Er' : r' = m_nx (t_mem s2)) by (unfold new_x in En2; congruence).
  pose proof (ok_new_x upd s2 x' O3) as O4. rewrite <- Em' in O4.
  assert (AG2 : agree (t_mem s2) m') by (rewrite Em'; apply agree_new_x).
  split.
  - destruct (inv_rebind m0 upd (t_mem s2) (t_models s2) (t_logs s2) p x' b' (o_good _ _ O3)) as [G _].
    { rewrite M2, M1. eauto. }
    destruct O4 as [_ B1 B2 B3 B4 B5 B6 B7 B8]. constructor; try assumption.
    + unfold good. cbn. rewrite Em', Er', <- M1, <- M2. exact G.
    + cbn. apply NoDup_dset. rewrite <- M1, <- M2. exact B2.
  - eexists. destruct (V_parts upd s2 m' O3 AG2) as (P1 & P2 & P3 & P4 & P5).
    unfold V, read_ctx, read_sim, set_models. cbn. unfold read_models. cbn. rewrite P2, P3, P4, P5.
    rewrite <- (dset_dmap (fun rb => (m_x m' (fst rb), snd rb)) (t_models s) p (r', b')). rewrite <- M1, <- M2, P1. unfold read_models. cbn [fst snd].
    replace (m_x m' r') with x' by (rewrite Em', Er'; cbn; symmetry; apply put_same). reflexivity.
Qed.

Lemma corr_update upd s e : ok upd s -> corr (akeys (t_players s) ++ upd) (h_update cfg s) (update (V s e)).
Proof.
  intro O. unfold h_update, update. change (akeys (c_players (cx (V s e)))) with (akeys (t_players s)).
  change (time (V s e)) with (t_time s).
  assert (Q' : corr (akeys (t_players s) ++ upd) (rfold (h_update_player cfg (t_time s)) s (akeys (t_players s))) (rfold (update_player (t_time s)) (V s e) (akeys (t_players s)))).
  { apply corr_fold_upd; [|exact O]. intros u s1 e1 x _ O1. apply corr_update_player; exact O1. }
  destruct (rfold (h_update_player cfg (t_time s)) s (akeys (t_players s))) as [s1|], (rfold (update_player (t_time s)) (V s e) (akeys (t_players s))) as [v1|]; cbn [corr] in Q'; try contradiction; [|exact Q'].
  destruct Q' as (O1 & e1 & ->). change (need_commands (V s1 e1)) with (h_need cfg s1).
  destruct (h_need cfg s1); (split; [|eexists; reflexivity]); [|exact O1].
  destruct O1 as [G B1 B2 B3 B4 B5 B6 B7 B8]. constructor; assumption.
Qed.

(** Observations. *)
Lemma corr_pre upd s e : ok upd s -> corr upd (h_pre_update cfg s) (pre_update (V s e)).
Proof.
  intro O. unfold h_pre_update, pre_update. change (need_commands (V s e)) with (h_need cfg s).
  destruct (h_need cfg s); [|split; [exact O|exists e; reflexivity]].
  change (akeys (c_players (cx (V s e)))) with (akeys (t_players s)). change (c_models (cx (V s e))) with (read_models H s).
  (* the fold against the map *)
  assert (F : forall l s1 obs, ok upd s1 -> (forall p r f, In (p, (r, f)) obs -> In r (m_seen (t_mem s1))) -> V s1 e = V s e ->
    match rfold h_observe (s1, obs) l, rmapM (observe (W:=W) (read_models H s)) l with
    | Ok (s2, obs'), Ok vs => ok upd s2 /\ (forall p r f, In (p, (r, f)) obs' -> In r (m_seen (t_mem s2))) /\ V s2 e = V s e /\ t_time s2 = t_time s1 /\
        agree (t_mem s1) (t_mem s2) /\
        dmap (fun rf => (m_x (t_mem s2) (fst rf), snd rf)) obs' = dmap (fun rf => (m_x (t_mem s2) (fst rf), snd rf)) obs ++ vs
    | Err e1, Err e2 => e1 = e2
    | _, _ => False
    end).
  { induction l as [|p l IH]; intros s1 obs O1 Ob EV; cbn [rfold rmapM].
    - split; [exact O1|]. split; [exact Ob|]. split; [exact EV|]. split; [reflexivity|]. split; [split; reflexivity|]. rewrite app_nil_r. reflexivity.
    - assert (RM : read_models H s1 = read_models H s) by exact (f_equal (fun v => c_models (cx v)) EV).
      assert (OB : observe (W:=W) (read_models H s) p = match agetE Nat.eqb (t_models s1) p with Err e => Err e | Ok rb => Ok (p, (m_x (t_mem s1) (fst rb), h_footprint H (m_x (t_mem s1) (fst rb), snd rb))) end).
      { unfold observe. rewrite <- RM. unfold read_models. rewrite dgetE_dmap. destruct (agetE Nat.eqb (t_models s1) p) as [[r b]|]; reflexivity. }
      rewrite OB. unfold h_observe at 1. destruct (agetE Nat.eqb (t_models s1) p) as [[r b]|] eqn:Em; cbn [fst snd]; [|reflexivity].
      unfold h_get_state. destruct (new_x (t_mem s1) (m_x (t_mem s1) r)) as [mm r'] eqn:En.
      assert (Emm : mm = fst (new_x (t_mem s1) (m_x (t_mem s1) r))) by (rewrite En; reflexivity).
      assert (Er : r' = m_nx (t_mem s1)) by (unfold new_x in En; congruence).
      set (s2 := st_mem (st_mem s1 mm) (show_x (t_mem (st_mem s1 mm)) r')).
      assert (AG : agree (t_mem s1) (t_mem s2)) by (cbn; rewrite Emm; exact (agree_new_x (t_mem s1) (m_x (t_mem s1) r))).
      assert (O2 : ok upd s2).
      { pose proof (proj1 (inv_show _ _ _ _ _ (m_x (t_mem s1) r) (o_good _ _ O1))) as G2. rewrite <- Er, <- Emm in G2.
        pose proof (ok_new_x upd s1 (m_x (t_mem s1) r) O1) as O2. rewrite <- Emm in O2.
        destruct O2 as [_ B1 B2 B3 B4 B5 B6 B7 B8]. constructor; try assumption.
        intros q rq f I. cbn. right. exact (B5 q rq f I). }
      assert (EV2 : V s2 e = V s e). { rewrite <- EV. exact (V_mem upd s1 (t_mem s2) e O1 AG). }
      specialize (IH s2 (obs ++ [(p, (r', h_footprint H (m_x (t_mem s1) r, b)))]) O2).
      assert (Ob2 : forall q rq f, In (q, (rq, f)) (obs ++ [(p, (r', h_footprint H (m_x (t_mem s1) r, b)))]) -> In rq (m_seen (t_mem s2))).
      { intros q rq f I. apply in_app_or in I as [I|[I|[]]]; cbn.
        - right. rewrite Emm. exact (Ob q rq f I).
        - injection I as _ <- _. left; reflexivity. }
      specialize (IH Ob2 EV2).
      destruct (rfold h_observe (s2, obs ++ [(p, (r', h_footprint H (m_x (t_mem s1) r, b)))]) l) as [[s3 obs3]|], (rmapM (observe (W:=W) (read_models H s)) l) as [vs|]; try contradiction; [|exact IH].
      destruct IH as (O3 & Ob3 & EV3 & T3 & AG3 & D3). split; [exact O3|]. split; [exact Ob3|]. split; [exact EV3|]. split; [exact T3|].
      split. { destruct AG as [A1 A2], AG3 as [A3 A4]. split; intros q L.
        - rewrite A3; [apply A1; exact L|]. cbn. rewrite Emm. cbn. lia.
        - rewrite A4; [apply A2; exact L|]. cbn. rewrite Emm. exact L. }
      rewrite D3. unfold dmap at 1 2. rewrite map_app, <- app_assoc. f_equal. cbn. do 3 f_equal.
      rewrite (proj1 AG3) by (cbn; rewrite Emm, Er; cbn; lia). cbn. rewrite Emm, Er. cbn. apply put_same. }
  specialize (F (akeys (t_players s)) s [] O ltac:(intros p r f []) eq_refl).
  destruct (rfold h_observe (s, []) (akeys (t_players s))) as [[s2 obs]|], (rmapM (observe (W:=W) (read_models H s)) (akeys (t_players s))) as [vs|]; try contradiction; [|exact F].
  destruct F as (O2 & Ob & EV & T & _ & D). cbn [dmap map app] in D. split.
  - destruct O2 as [G B1 B2 B3 B4 B5 B6 B7 B8]. constructor; assumption.
  - exists e. rewrite <- EV. unfold upd_sm, set_obs, V. cbn [cx sm ev s_last s_cmds s_logs read_sim]. f_equal. unfold read_sim. cbn. f_equal.
    unfold read_obs. cbn. rewrite D. change (dmap (fun rf : nat * h_F H => (m_x (t_mem s2) (fst rf), snd rf)) []) with (@nil (player * (X * h_F H))). cbn [app]. unfold time. cbn. rewrite ?T. reflexivity.
Qed.

(** Leaving players. *)
Lemma corr_remove1 upd s e pm : ok upd s -> corr upd (h_remove1 s pm) (remove_finished1 (V s e) pm).
Proof.
  intro O. destruct pm as [p g]. unfold h_remove1, remove_finished1.
  change (dmem (c_players (cx (V s e))) p) with (dmem (t_players s) p).
  destruct (dmem (t_players s) p); [|split; [exact O|exists e; reflexivity]].
  change (c_models (cx (V s e))) with (read_models H s). unfold read_models. rewrite dgetE_dmap.
  destruct (agetE Nat.eqb (t_models s) p) as [[r b]|] eqn:Em; cbn [rmap]; [|reflexivity].
  cbn [fst snd]. unfold h_get_state. destruct (new_x (t_mem s) (m_x (t_mem s) r)) as [mm r'] eqn:En.
  assert (Emm : mm = fst (new_x (t_mem s) (m_x (t_mem s) r))) by (rewrite En; reflexivity).
  assert (Er : r' = m_nx (t_mem s)) by (unfold new_x in En; congruence).
  pose proof (ok_new_x upd s (m_x (t_mem s) r) O) as O1. rewrite <- Emm in O1.
  assert (AG : agree (t_mem s) mm) by (rewrite Emm; apply agree_new_x).
  assert (Rl : m_x mm r' = m_x (t_mem s) r) by (rewrite Emm, Er; cbn; apply put_same).
  rewrite <- (V_mem upd s mm e O AG). set (s0 := st_mem s mm) in *.
  change (get_state W (m_x (t_mem s) r, b)) with (m_x (t_mem s) r). cbv zeta. rewrite <- Rl. change (m_x mm r') with (m_x (t_mem s0) r').
  change (goal_done W) with (h_goal H). change (time (V s0 e)) with (t_time s0). change (t_time s) with (t_time s0).
  destruct (h_goal H g (m_x (t_mem s0) r') (t_time s0)) as [[|]|]; [| |reflexivity].
  - assert (L1 : corr upd (h_logger s0 p (h_log_state (t_time s0) r')) (with_logger (V s0 e) p (log_state (W:=W) (t_time s0) (m_x (t_mem s0) r')))).
    { apply corr_log_state; [exact O1| | |].
      - cbn. rewrite Emm, Er. cbn. lia.
      - cbn. rewrite Emm, Er. cbn. intro I. apply (i_seen _ _ _ _ _ (o_good _ _ O)) in I. lia.
      - cbn. intros q b' E. rewrite Er in E. apply (i_models _ _ _ _ _ (o_good _ _ O)) in E. lia. }
    destruct (h_logger s0 p (h_log_state (t_time s0) r')) as [s1|], (with_logger (V s0 e) p (log_state (W:=W) (t_time s0) (m_x (t_mem s0) r'))) as [v1|]; cbn [corr] in L1; try contradiction; [|exact L1].
    destruct L1 as (O2 & e1 & ->). split; [|eexists; reflexivity].
    destruct O2 as [G B1 B2 B3 B4 B5 B6 B7 B8]. constructor; try assumption. cbn. apply NoDup_ddel; exact B3.
  - split; [exact O1|exists e; reflexivity].
Qed.

(** Collisions. *)
Lemma V_write upd s p r b x b' e : ok upd s -> In p upd -> dget (t_models s) p = Some (r, b) ->
  let s1 := st_models (st_mem s (write_x (t_mem s) r x)) (dset (t_models s) p (r, b')) in
  ok upd s1 /\ V s1 e = @mkSt W (set_models (cx (V s e)) (dset (c_models (cx (V s e))) p (x, b'))) (sm (V s e)) e.
Proof.
  intros O I Em s1. destruct (inv_write _ _ _ _ _ p r b x b' (o_good _ _ O) Em I) as [G _].
  pose proof (i_upd _ _ _ _ _ (o_good _ _ O) p r b I Em) as Lr.
  pose proof (i_models _ _ _ _ _ (o_good _ _ O) p r b Em) as [_ Ns]. split.
  - destruct O as [_ B1 B2 B3 B4 B5 B6 B7 B8]. constructor; try assumption.
    + destruct B1 as (C1 & C2 & C3 & C4). split; [exact C1|]. split; [exact C2|]. split; [|exact C4].
      intros r1 L. cbn. rewrite put_other by lia. apply C3; exact L.
    + cbn. apply NoDup_dset; exact B2.
  - pose proof (read_sim_ext upd s (write_x (t_mem s) r x) O) as ES.
    assert (ES' : read_sim H cmds extra sense_ s1 = read_sim H cmds extra sense_ s).
    { change (read_sim H cmds extra sense_ s1) with (read_sim H cmds extra sense_ (st_mem s (write_x (t_mem s) r x))). apply ES.
      - intros r1 I1. cbn. apply put_other. intros ->; contradiction.
      - intros q l r1 Il I1. cbn. apply put_other. intros ->. apply (log_small _ _ _ _ _ O Il I1) in Em. exact Em.
      - reflexivity. }
    unfold V. cbn [cx sm]. rewrite ES'. f_equal. unfold set_models, read_ctx. cbn. rewrite (o_log _ _ O). f_equal.
    unfold read_models, s1. cbn.
    rewrite <- (dset_dmap (fun rb => (put (m_x (t_mem s)) r x (fst rb), snd rb)) (t_models s) p (r, b')). cbn. rewrite put_same.
    (* entries of other players read other objects *)
    assert (EX : forall d, (forall q rq bq, In (q, (rq, bq)) d -> q <> p -> rq <> r) ->
       dset (dmap (fun rb => (put (m_x (t_mem s)) r x (fst rb), snd rb)) d) p (x, b') = dset (dmap (fun rb => (m_x (t_mem s) (fst rb), snd rb)) d) p (x, b') \/ ~ NoDup (akeys d)).
    { induction d as [|[q [rq bq]] d IH]; intro D; [left; reflexivity|].
      rewrite !dmap_cons. unfold aset; fold (aset (V:=X * B) Nat.eqb). cbn [fst snd]. destruct (Nat.eqb_spec q p) as [->|Nq].
      - destruct (in_dec Nat.eq_dec p (akeys d)) as [Ip|Ip].
        + right. intro N. change (akeys ((p, (rq, bq)) :: d)) with (p :: akeys d) in N. inversion N; contradiction.
        + left. f_equal. apply dmap_ext. intros k [rk bk] Ik. cbn. rewrite put_other; [reflexivity|]. apply (D k rk bk (or_intror Ik)).
          intros ->. apply Ip. apply (in_map fst) in Ik. exact Ik.
      - destruct IH as [E|N]; [intros; eapply D; [right; eassumption|assumption]| |].
        + left. rewrite (put_other _ _ _ rq) by (apply (D q rq bq (or_introl eq_refl) Nq)). rewrite E. reflexivity.
        + right. intro N1. apply N. change (akeys ((q, (rq, bq)) :: d)) with (q :: akeys d) in N1. inversion N1; assumption. }
    destruct (EX (t_models s)) as [E|N]; [|exact E|exfalso; apply N; apply O].
    intros q rq bq Iq Nq ->. apply (In_dget _ _ _ (o_keys _ _ O)) in Iq.
    exact (i_alias _ _ _ _ _ (o_good _ _ O) p q r b bq ltac:(congruence) Em Iq I).
Qed.

Lemma corr_check_env1 upd p s e i : ok upd s -> In p upd -> corr upd (h_check_env1 cfg p s i) (check_env1 p (V s e) i).
Proof.
  intros O I. unfold h_check_env1, check_env1. change (c_models (cx (V s e))) with (read_models H s). unfold read_models at 1. rewrite dgetE_dmap.
  destruct (agetE Nat.eqb (t_models s) p) as [[r b]|] eqn:Em; cbn [rmap]; [|reflexivity]. apply agetE_Ok in Em.
  change (obstacles W (g_scen (c_cfg (cx (V s e))))) with (h_obstacles H (hc_scen cfg)).
  change (w_O W) with (h_O H). destruct (item (h_obstacles H (hc_scen cfg)) i) as [ob|]; [|reflexivity]. cbn [fst snd].
  change (resolve_env W) with (h_resolve_env H). change (time (V s e)) with (t_time s). change (is_dyn W) with (h_is_dyn H).
  destruct (h_resolve_env H p ob (t_time s) (m_x (t_mem s) r, b)) as [[x' b'] out].
  destruct (V_write upd s p r b x' b' (@EEnv W p i (t_time s) (h_is_dyn H (x', b')) out :: e) O I Em) as [O1 EV].
  set (s1 := st_models (st_mem s (write_x (t_mem s) r x')) (dset (t_models s) p (r, b'))) in *.
  change (read_models H s) with (c_models (cx (V s e))).
  match goal with |- context [@mkSt W ?c ?m ?ev] => change (@mkSt W c m ev) with (@mkSt W (set_models (cx (V s e)) (dset (c_models (cx (V s e))) p (x', b'))) (sm (V s e)) (@EEnv W p i (t_time s) (h_is_dyn H (x', b')) out :: e)) end.
  replace (@mkSt W (set_models (cx (V s e)) (dset (c_models (cx (V s e))) p (x', b'))) (sm (V s e)) (@EEnv W p i (t_time s) (h_is_dyn H (x', b')) out :: e))
    with (V s1 (@EEnv W p i (t_time s) (h_is_dyn H (x', b')) out :: e)) by exact EV.
  change (h_D H) with (w_D W) in *.
  destruct (match out with Ok r0 => Ok r0 | Err CollisionException => Ok (Some (mkRep [p] (t_time s) None)) | Err e0 => Err e0 end) as [[rp|]|]; [| |reflexivity].
  - destruct (h_is_dyn H (x', b')); (split; [|eexists; reflexivity]); [exact O1|].
    destruct O1 as [G B1 B2 B3 B4 B5 B6 B7 B8]. constructor; assumption.
  - split; [exact O1|eexists; reflexivity].
Qed.

Lemma corr_check_env upd s e : ok upd s -> (forall p, In p (akeys (t_players s)) -> In p upd) -> corr upd (h_check_env cfg s) (check_env (V s e)).
Proof.
  intros O I. unfold h_check_env, check_env. change (akeys (c_players (cx (V s e)))) with (akeys (t_players s)).
  apply corr_fold; [|exact O]. clear O s e I || idtac. intros s1 e1 p Ip O1. unfold h_check_env_player, check_env_player.
  change (c_models (cx (V s1 e1))) with (read_models H s1). unfold read_models at 1. rewrite dgetE_dmap.
  destruct (agetE Nat.eqb (t_models s1) p) as [[r b]|] eqn:Em; cbn [rmap]; [|reflexivity].
  change (env_query W (g_scen (c_cfg (cx (V s1 e1))))) with (h_query H (hc_scen cfg)). change (footprint W) with (h_footprint H). cbn [fst snd].
  apply corr_fold; [|exact O1]. intros s2 e2 i _ O2. apply corr_check_env1; [exact O2|]. apply I; exact Ip.
Qed.

Lemma corr_check_pair upd s e p q : ok upd s -> p <> q -> In p upd -> In q upd -> corr upd (h_check_pair cfg s (p, q)) (check_pair (V s e) (p, q)).
Proof.
  intros O N I J. unfold h_check_pair, check_pair. change (c_models (cx (V s e))) with (read_models H s). unfold read_models at 1 2. rewrite !dgetE_dmap.
  destruct (agetE Nat.eqb (t_models s) p) as [[ra ba]|] eqn:Ea; cbn [rmap]; [|reflexivity]. apply agetE_Ok in Ea.
  destruct (agetE Nat.eqb (t_models s) q) as [[rb bb]|] eqn:Eb; cbn [rmap]; [|reflexivity]. apply agetE_Ok in Eb. cbn [fst snd].
  change (intersects W) with (h_intersects H). change (footprint W) with (h_footprint H). cbv zeta.
  destruct (h_intersects H (h_footprint H (m_x (t_mem s) ra, ba)) (h_footprint H (m_x (t_mem s) rb, bb))); [|split; [exact O|exists e; reflexivity]].
  change (resolve W (g_scen (c_cfg (cx (V s e))))) with (h_resolve H (hc_scen cfg)). change (time (V s e)) with (t_time s).
  destruct (h_resolve H (hc_scen cfg) p q (t_time s) (m_x (t_mem s) ra, ba) (m_x (t_mem s) rb, bb)) as [[[xa ba'] [xb bb']] out].
  set (ee := @EPair W p q (t_time s) out :: e).
  destruct (V_write upd s p ra ba xa ba' ee O I Ea) as [O1 EV1].
  set (s1 := st_models (st_mem s (write_x (t_mem s) ra xa)) (dset (t_models s) p (ra, ba'))) in *.
  assert (Eb' : dget (t_models s1) q = Some (rb, bb)) by (cbn; rewrite dget_dset_other by exact N; exact Eb).
  destruct (V_write upd s1 q rb bb xb bb' ee O1 J Eb') as [O2 EV2].
  set (s2 := st_models (st_mem s1 (write_x (t_mem s1) rb xb)) (dset (t_models s1) q (rb, bb'))) in *.
  assert (EV : @mkSt W (set_models (cx (V s e)) (dset (dset (read_models H s) p (xa, ba')) q (xb, bb'))) (sm (V s e)) ee = V s2 ee).
  { rewrite EV2, EV1. reflexivity. }
  change (st_models (st_mem s (write_x (write_x (t_mem s) ra xa) rb xb)) (dset (dset (t_models s) p (ra, ba')) q (rb, bb'))) with s2.
  match goal with |- context [@mkSt W ?c ?m ?ev] => change (@mkSt W c m ev) with (@mkSt W (set_models (cx (V s e)) (dset (dset (read_models H s) p (xa, ba')) q (xb, bb'))) (sm (V s e)) ee) end.
  rewrite EV. change (h_D H) with (w_D W) in *.
  destruct (match out with Ok r0 => Ok r0 | Err CollisionException => Ok (Some (mkRep [p; q] (t_time s) None)) | Err e0 => Err e0 end) as [[rp|]|]; [| |reflexivity].
  - split; [|eexists; reflexivity]. destruct O2 as [G B1 B2 B3 B4 B5 B6 B7 B8]. constructor; assumption.
  - split; [exact O2|eexists; reflexivity].
Qed.

Lemma corr_check_players upd s e : ok upd s -> (forall p, In p (akeys (t_players s)) -> In p upd) -> corr upd (h_check_players cfg s) (check_players (V s e)).
Proof.
  intros O I. unfold h_check_players, check_players. change (akeys (c_players (cx (V s e)))) with (akeys (t_players s)).
  pose proof (o_pkeys _ _ O) as N. apply corr_fold; [|exact O]. intros s1 e1 [p q] Ipq O1. pose proof (combinations2_in _ _ _ Ipq) as [I1 I2].
  apply corr_check_pair; [exact O1|exact (combinations2_neq _ _ _ N Ipq)|apply I; exact I1|apply I; exact I2].
Qed.

Lemma corr_post upd s e : ok upd s -> (forall p, In p (akeys (t_players s)) -> In p upd) -> corr upd (h_post_update cfg s) (post_update (V s e)).
Proof.
  intros O I. unfold h_post_update, post_update.
  set (s1 := st_time s (t_time s + dt (hc_param cfg))%Qc).
  change (upd_cx (V s e) (set_time (cx (V s e)) (time (V s e) + dt (param (V s e)))%Qc)) with (V s1 e).
  assert (O1 : ok upd s1) by (destruct O as [G B1 B2 B3 B4 B5 B6 B7 B8]; constructor; assumption).
  assert (L : corr upd (h_remove cfg s1) (remove_finished (V s1 e))).
  { unfold h_remove, remove_finished. change (g_missions (c_cfg (cx (V s1 e)))) with (hc_missions cfg).
    apply corr_fold; [|exact O1]. intros s2 e2 pm _ O2. apply corr_remove1; exact O2. }
  assert (FR : forall s2, h_remove cfg s1 = Ok s2 -> forall p, In p (akeys (t_players s2)) -> In p upd).
  { intros s2 E p Ip. destruct (remove_spec cfg m0 upd s1 s2 (o_good _ _ O1) (o_pkeys _ _ O1) E) as (_ & _ & (_ & _ & F) & _). apply I. exact (F p Ip). }
  destruct (h_remove cfg s1) as [s2|], (remove_finished (V s1 e)) as [v2|]; cbn [corr] in L; try contradiction; [|exact L].
  destruct L as (O2 & e2 & ->). specialize (FR s2 eq_refl).
  set (s3 := st_term s2 (h_termination cfg s2)). change (maybe_terminate (V s2 e2)) with (V s3 e2).
  assert (O3 : ok upd s3) by (destruct O2 as [G B1 B2 B3 B4 B5 B6 B7 B8]; constructor; assumption).
  change (c_term (cx (V s3 e2))) with (t_term s3). cbv zeta. destruct (t_term s3); [split; [exact O3|exists e2; reflexivity]|].
  pose proof (corr_check_env upd s3 e2 O3 FR) as L4.
  assert (FR4 : forall s4, h_check_env cfg s3 = Ok s4 -> t_players s4 = t_players s3).
  { intros s4 E. apply (check_env_spec cfg m0 upd s3 s4 (o_good _ _ O3) FR E). }
  destruct (h_check_env cfg s3) as [s4|], (check_env (V s3 e2)) as [v4|]; cbn [corr] in L4; try contradiction; [|exact L4].
  destruct L4 as (O4 & e4 & ->). apply corr_check_players; [exact O4|]. rewrite (FR4 s4 eq_refl). exact FR.
Qed.

Lemma corr_tick upd s e : ok upd s -> corr (akeys (t_players s) ++ upd) (h_tick cfg s) (step (V s e)).
Proof.
  intro O. unfold h_tick, step. pose proof (corr_pre upd s e O) as L.
  assert (FR : forall s1, h_pre_update cfg s = Ok s1 -> t_players s1 = t_players s) by (intros s1 E; apply (pre_update_spec cfg m0 upd s s1 (o_good _ _ O) E)).
  destruct (h_pre_update cfg s) as [s1|], (pre_update (V s e)) as [v1|]; cbn [corr] in L; try contradiction; [|exact L].
  destruct L as (O1 & e1 & ->). specialize (FR s1 eq_refl).
  pose proof (corr_update upd s1 e1 O1) as L2.
  assert (FR2 : forall s2, h_update cfg s1 = Ok s2 -> akeys (t_players s2) = akeys (t_players s1)) by (intros s2 E; apply (update_spec cfg m0 upd s1 s2 (o_good _ _ O1) (o_pkeys _ _ O1) E)).
  destruct (h_update cfg s1) as [s2|], (update (V s1 e1)) as [v2|]; cbn [corr] in L2; try contradiction; [|exact L2].
  destruct L2 as (O2 & e2 & ->). rewrite FR in *. apply corr_post; [exact O2|]. intros p I. rewrite (FR2 s2 eq_refl) in I. apply in_or_app; left; exact I.
Qed.

Definition corr' (r : option (result (hst H))) (r' : option (result (st W))) : Prop :=
  match r, r' with
  | None, None => True
  | Some r, Some r' => exists upd, corr upd r r'
  | _, _ => False
  end.

Lemma corr_loop fuel : forall upd s e, ok upd s -> corr' (h_loop cfg fuel s) (loop fuel (V s e)).
Proof.
  induction fuel as [|f IH]; intros upd s e O; cbn [h_loop loop]; change (c_term (cx (V s e))) with (t_term s); destruct (t_term s).
  - exists upd. split; [exact O|exists e; reflexivity].
  - exact I.
  - exists upd. split; [exact O|exists e; reflexivity].
  - pose proof (corr_tick upd s e O) as L. destruct (h_tick cfg s) as [s1|], (step (V s e)) as [v1|]; cbn [corr] in L; try contradiction.
    + destruct L as (O1 & e1 & ->). eapply IH; exact O1.
    + exists []. exact L.
Qed.

Lemma corr_init upd s e : ok upd s -> corr upd (h_init_run cfg s) (rfold (init_player (W:=W)) (V s e) (akeys (t_players s))).
Proof.
  intro O. unfold h_init_run. apply corr_fold; [|exact O]. clear O e. generalize (akeys (t_players s)) as l0; clear s. intros l0 s e p _ O. unfold h_init_player, init_player.
  change (w_A W) with (h_A H). change (c_players (cx (V s e))) with (t_players s). destruct (agetE Nat.eqb (t_players s) p) as [a|] eqn:Ea; [|reflexivity]. apply agetE_Ok in Ea.
  change (c_models (cx (V s e))) with (read_models H s). unfold read_models. rewrite dgetE_dmap.
  destruct (agetE Nat.eqb (t_models s) p) as [[r b]|]; cbn [rmap]; [|reflexivity].
  change (agent_init W a p (g_seed (c_cfg (cx (V s e)))) (g_scen (c_cfg (cx (V s e)))) (dget (g_missions (c_cfg (cx (V s e)))) p) (m_x (t_mem s) (fst (r, b)), snd (r, b)))
    with (h_init H a p (hc_seed cfg) (hc_scen cfg) (dget (hc_missions cfg) p) b).
  destruct (h_init H a p (hc_seed cfg) (hc_scen cfg) (dget (hc_missions cfg) p) b) as [a'|]; [|reflexivity].
  split.
  - destruct O as [G B1 B2 B3 B4 B5 B6 B7 B8]. constructor; try assumption; cbn.
    + destruct G as [V1 V2 V3 V4 V5 V6 V7 V8]. constructor; try assumption.
      intros q l. cbn. rewrite dget_dset. destruct (Nat.eqb_spec p q) as [->|Npq]; [|apply V6].
      intro E; injection E as <-. cbn. split; [reflexivity|intros r1 []].
    + apply NoDup_dset; exact B3.
    + apply NoDup_dset; exact B4.
    + intros q l r1 Iq Ir. apply In_dset in Iq as [[-> ->]|Iq]; [destruct Ir|exact (B7 _ _ _ Iq Ir)].
  - eexists. unfold V. f_equal. unfold set_logs. cbn. unfold read_sim. cbn. f_equal.
    rewrite <- (dset_dmap (read_logger H cmds extra sense_ (t_mem s)) (t_logs s) p new_hlogger). reflexivity.
Qed.

(** Writing the logs. *)
Lemma as_seq_read {Vt} (f : nat -> Vt) b : as_sequence (read_builder f b) = rmap (read_seq f) (as_sequence b).
Proof.
  unfold as_sequence, new_seq, read_builder. cbn. rewrite map_length. destruct (negb (length (b_ts b) =? length (b_vs b))%nat); [reflexivity|].
  destruct (steps_ok (b_ts b)); reflexivity.
Qed.
Lemma logger_seq_read m l : logger_as_sequence (W:=W) (read_logger H cmds extra sense_ m l) = rmap (read_plog H cmds extra sense_ m) (h_as_sequence l).
Proof.
  unfold logger_as_sequence, h_as_sequence. cbn [lg_states lg_commands lg_extra lg_info read_logger].
  rewrite !as_seq_read. destruct (as_sequence (k_states l)); [|reflexivity]. destruct (as_sequence (k_commands l)); [|reflexivity]. cbn [rmap].
  change (w_E W) with (h_E H). change (w_I W) with (h_I H).
  destruct (as_sequence (k_extra l)); [|reflexivity]. destruct (as_sequence (k_info l)); reflexivity.
Qed.
Lemma corr_write s e l :
  match rfold h_write_log s l, rfold (write_log (W:=W)) (V s e) l with
  | Ok s', Ok v => v = V s' e
  | Err e1, Err e2 => e1 = e2
  | _, _ => False
  end.
Proof.
  revert s. induction l as [|p l IH]; intro s; cbn [rfold]; [reflexivity|].
  assert (WL : match h_write_log s p, write_log (V s e) p with Ok s', Ok v => v = V s' e | Err e1, Err e2 => e1 = e2 | _, _ => False end).
  { unfold h_write_log, write_log. change (s_logs (sm (V s e))) with (dmap (read_logger H cmds extra sense_ (t_mem s)) (t_logs s)).
    rewrite dgetE_dmap. destruct (agetE Nat.eqb (t_logs s) p) as [lg|]; cbn [rmap]; [|reflexivity].
    rewrite logger_seq_read. destruct (h_as_sequence lg) as [q|]; cbn [rmap]; [|reflexivity].
    unfold V, upd_cx. cbn [cx sm ev]. f_equal. unfold set_log. cbn. unfold read_ctx. cbn. f_equal. apply dset_dmap. }
  destruct (h_write_log s p) as [s1|], (write_log (V s e) p) as [v1|]; try contradiction; [|exact WL]. rewrite WL. apply IH.
Qed.

Lemma refines fuel s : about_to_run s -> t_mem s = m0 ->
  match h_run cfg fuel s, run fuel (read_sim H cmds extra sense_ s) (read_ctx H cmds extra sense_ cfg s) with
  | None, None => True
  | Some (Ok s'), Some (Ok v) => cx v = read_ctx H cmds extra sense_ cfg s' /\ sm v = read_sim H cmds extra sense_ s'
  | Some (Err e), Some (Err e') => e = e'
  | _, _ => False
  end.
Proof.
  intros (N1 & N2 & SK & MD & SN & L1 & L2 & L3 & L4) EM.
  assert (O : ok [] s).
  { constructor; try assumption.
    - unfold good. rewrite <- EM. constructor; try assumption; try (intros; contradiction).
      + lia.
      + intros p q r b b' _ _ _ [].
      + rewrite L1. intros p l E. discriminate E.
      + intros r I _. exact I.
      + reflexivity.
    - rewrite EM. split; [lia|]. split; [lia|]. split; reflexivity.
    - rewrite L1. constructor.
    - rewrite L4. intros p r f [].
    - rewrite L3. intros p r [].
    - rewrite L1. intros p l r []. }
  unfold h_run, run, init_run. pose proof (corr_init [] s [] O) as Q.
  change (@mkSt W (read_ctx H cmds extra sense_ cfg s) (read_sim H cmds extra sense_ s) []) with (V s []).
  change (akeys (c_players (read_ctx H cmds extra sense_ cfg s))) with (akeys (t_players s)).
  destruct (h_init_run cfg s) as [s1|], (rfold (init_player (W:=W)) (V s []) (akeys (t_players s))) as [v1|]; cbn [corr] in Q; try contradiction; [|exact Q].
  destruct Q as (O1 & e1 & ->). pose proof (corr_loop fuel [] s1 e1 O1) as Q.
  destruct (h_loop cfg fuel s1) as [[s2|]|], (loop fuel (V s1 e1)) as [[v2|]|]; cbn [corr' corr] in Q; try contradiction; try exact Q; try (destruct Q as (? & Q); exact Q || contradiction).
  destruct Q as (upd & O2 & e2 & ->). unfold h_write_logs, write_logs.
  change (akeys (c_models (cx (V s2 e2)))) with (akeys (read_models H s2)). unfold read_models. rewrite akeys_dmap.
  pose proof (corr_write s2 e2 (akeys (t_models s2))) as Q.
  destruct (rfold h_write_log s2 (akeys (t_models s2))) as [s3|], (rfold (write_log (W:=W)) (V s2 e2) (akeys (t_models s2))) as [v3|]; try contradiction; [|exact Q].
  rewrite Q. split; reflexivity.
Qed.
End Refine.
