(** Objects and references: theorems about HeapModel. *)
From Coq Require Import QArith Qcanon List Bool Arith Lia.
From Verif Require Import Base Num SeqModel SimulatorModel DictLemmas HeapModel HeapSpec HeapProofs HeapProofs2 HeapProofs3 HeapExamples.
Import ListNotations.
Open Scope nat_scope.
(* BODY *)

Lemma init_good {H} (cfg : hconfig H) s0 s : about_to_run s0 -> h_init_run cfg s0 = Ok s ->
  good (t_mem s0) [] s /\ t_mem s = t_mem s0 /\ t_models s = t_models s0 /\ NoDup (akeys (t_players s)) /\
  akeys (t_players s) = akeys (t_players s0).
Proof.
  intros (N1 & N2 & SK & MD & SN & L1 & L2 & L3 & L4) Q. unfold h_init_run in Q.
  assert (P : good (t_mem s0) [] s /\ t_mem s = t_mem s0 /\ t_models s = t_models s0 /\ akeys (t_players s) = akeys (t_players s0)).
  { refine (rfold_inv' (h_init_player cfg) (fun s => good (t_mem s0) [] s /\ t_mem s = t_mem s0 /\ t_models s = t_models s0 /\ akeys (t_players s) = akeys (t_players s0)) _ s0 s _ _ Q).
    - split; [|repeat split; reflexivity]. constructor; try assumption; try (intros; contradiction).
      + lia.
      + intros p q r b b' _ _ _ [].
      + rewrite L1. intros p l E. discriminate E.
      + intros r I _. exact I.
      + reflexivity.
    - clear Q s. intros p s1 s2 (G & M1 & M2 & K) _ Q. unfold h_init_player in Q.
      destruct (agetE Nat.eqb (t_players s1) p) as [a|] eqn:Ea; [|discriminate]. apply agetE_Ok in Ea.
      destruct (agetE Nat.eqb (t_models s1) p) as [[r b]|]; [|discriminate].
      destruct (h_init H a p (hc_seed cfg) (hc_scen cfg) (dget (hc_missions cfg) p) b) as [a'|]; [|discriminate].
      injection Q as <-. split; [|split; [exact M1|split; [exact M2|]]].
      + destruct G as [V1 V2 V3 V4 V5 V6 V7 V8]. constructor; try assumption.
        intros q l. cbn. rewrite dget_dset. destruct (Nat.eqb_spec p q) as [->|Npq]; [|apply V6].
        intro E; injection E as <-. cbn. split; [reflexivity|intros r1 []].
      + cbn. rewrite keys_dset; [exact K|exact (dget_Some_In _ _ _ Ea)]. }
  destruct P as (G & M1 & M2 & K). split; [exact G|]. split; [exact M1|]. split; [exact M2|]. rewrite K. split; [exact N2|reflexivity].
Qed.

Lemma reached_good {H} (cfg : hconfig H) s0 s : about_to_run s0 -> reached cfg s0 s ->
  exists upd, good (t_mem s0) upd s /\ NoDup (akeys (t_players s)) /\ akeys (t_models s) = akeys (t_models s0).
Proof.
  intros A R. induction R as [s Q|s s' R IH T Q].
  - destruct (init_good cfg s0 s A Q) as (G & _ & M & N & _). exists []. rewrite M. split; [exact G|]. split; [exact N|reflexivity].
  - destruct IH as (upd & G & N & K). destruct (tick_spec cfg _ _ _ _ G N Q) as (G' & _ & (F1 & F2 & _) & _).
    eexists. split; [exact G'|]. split; [exact F2|congruence].
Qed.

Lemma later_kept {H} (cfg : hconfig H) m0 upd s s' : good m0 upd s -> NoDup (akeys (t_players s)) -> later cfg s s' ->
  kept s s' /\ (exists upd', good m0 upd' s') /\ NoDup (akeys (t_players s')) /\ akeys (t_models s') = akeys (t_models s).
Proof.
  intros G N L. induction L as [|s1 s2 L (K & (upd1 & G1) & N1 & M1) T Q].
  - split; [apply kept_refl|]. split; [exists upd; exact G|]. split; [exact N|reflexivity].
  - destruct (tick_spec cfg _ _ _ _ G1 N1 Q) as (G2 & K2 & (F1 & F2 & _) & _).
    split; [eapply kept_trans; eassumption|]. split; [eexists; exact G2|]. split; [exact F2|congruence].
Qed.

Lemma loop_later {H} (cfg : hconfig H) fuel : forall s s', h_loop cfg fuel s = Some (Ok s') -> later cfg s s'.
Proof.
  assert (TR : forall s1 s2 s3, later cfg s2 s3 -> t_term s1 = false -> h_tick cfg s1 = Ok s2 -> later cfg s1 s3).
  { intros s1 s2 s3 L. induction L as [|sa sb L IH T Q]; intros T1 Q1.
    - eapply later_tick; [apply later_same|exact T1|exact Q1].
    - eapply later_tick; [apply IH; assumption|exact T|exact Q]. }
  induction fuel as [|f IH]; intros s s' Q; cbn in Q; destruct (t_term s) eqn:T; try discriminate.
  - injection Q as <-. apply later_same.
  - injection Q as <-. apply later_same.
  - destruct (h_tick cfg s) as [s1|] eqn:E; [|discriminate]. eapply TR; [apply IH; exact Q|exact T|exact E].
Qed.

Lemma write_logs_spec {H} (s s' : hst H) : NoDup (akeys (t_models s)) -> h_write_logs s = Ok s' ->
  t_mem s' = t_mem s /\ forall p, In p (akeys (t_models s)) -> exists l q, dget (t_logs s) p = Some l /\ h_as_sequence l = Ok q /\ dget (t_log s') p = Some q.
Proof.
  intros N Q. unfold h_write_logs in Q.
  assert (P : t_mem s' = t_mem s /\ t_logs s' = t_logs s /\ forall p, In p (akeys (t_models s)) -> exists l q, dget (t_logs s) p = Some l /\ h_as_sequence l = Ok q /\ dget (t_log s') p = Some q).
  { refine (rfold_inv_nd h_write_log (fun pre s' => t_mem s' = t_mem s /\ t_logs s' = t_logs s /\ forall p, In p pre -> exists l q, dget (t_logs s) p = Some l /\ h_as_sequence l = Ok q /\ dget (t_log s') p = Some q) _ [] s s' _ N _ Q).
    - split; [reflexivity|]. split; [reflexivity|intros p []].
    - clear Q s'. intros pre p s1 s2 (M & L & W) Np _ Q. unfold h_write_log in Q.
      destruct (agetE Nat.eqb (t_logs s1) p) as [l|] eqn:E; [|discriminate]. apply agetE_Ok in E. rewrite L in E.
      destruct (h_as_sequence l) as [q|] eqn:Eq; [|discriminate]. injection Q as <-.
      split; [exact M|]. split; [exact L|]. intros p' I. apply in_app_or in I as [I|[<-|[]]].
      + destruct (W p' I) as (l1 & q1 & A1 & A2 & A3). exists l1, q1. split; [exact A1|]. split; [exact A2|].
        cbn. rewrite dget_dset_other; [exact A3|]. intros ->; contradiction.
      + exists l, q. split; [exact E|]. split; [exact Eq|]. cbn. apply dget_dset_same. }
  destruct P as (M & _ & W). split; assumption.
Qed.

Lemma in_combine_map {A C D} (f : C -> D) (l : list A) (l' : list C) a c : In (a, c) (combine l l') -> In (a, f c) (combine l (map f l')).
Proof.
  revert l'; induction l as [|x l IH]; intros [|y l'] I; cbn in *; try contradiction.
  destruct I as [E|I]; [injection E as <- <-; left; reflexivity|right; apply IH; exact I].
Qed.

(** C108.  Whatever the agents do to the objects they are given, a state in the
    log reads, after the run, as the state of the player was at that time. *)

Theorem C108_states_log : forall H (cfg : hconfig H) s0 s s1 s2 fuel p,
  about_to_run s0 -> reached cfg s0 s -> t_term s = false -> In p (akeys (t_players s)) ->
  h_loop cfg fuel s = Some (Ok s1) -> h_write_logs s1 = Ok s2 ->
  exists l x, dget (t_log s2) p = Some l /\ state_of s p = Some x /\ In (t_time s, x) (read_states s2 l).
Proof.
  intros H cfg s0 s s1 s2 fuel p A R T I Q W. destruct (reached_good cfg s0 s A R) as (upd & G & N & K).
  destruct fuel as [|fuel]; cbn in Q; rewrite T in Q; [discriminate|].
  destruct (h_tick cfg s) as [sa|] eqn:E; [|discriminate].
  destruct (tick_spec cfg _ _ _ _ G N E) as (G' & _ & (F1 & F2 & _) & Lg).
  destruct (Lg p I) as (r & b & rl & Em & L & Rd).
  destruct (later_kept cfg _ _ _ _ G' F2 (loop_later cfg _ _ _ Q)) as (K1 & _ & _ & M1).
  destruct (kept_logged (t_mem s0) _ _ _ _ _ _ G' K1 L) as [(l & El & Il) Rd1].
  destruct (write_logs_spec s1 s2) as [M2 W2]; [|exact W|].
  { rewrite M1, F1, K. apply A. }
  destruct (W2 p) as (l1 & q & A1 & A2 & A3). { rewrite M1, F1. exact (dget_Some_In _ _ _ Em). }
  exists q, (m_x (t_mem s) r). split; [exact A3|]. split; [unfold state_of; rewrite Em; reflexivity|].
  unfold read_states. rewrite M2. rewrite El in A1. injection A1 as <-.
  assert (TS : tss (p_states q) = b_ts (k_states l) /\ vals (p_states q) = b_vs (k_states l)).
  { unfold h_as_sequence, as_sequence in A2. destruct (new_seq true (b_ts (k_states l)) (b_vs (k_states l))) as [q1|] eqn:E1; [|discriminate].
    destruct (new_seq true (b_ts (k_commands l)) (b_vs (k_commands l))); [|discriminate].
    destruct (new_seq true (b_ts (k_extra l)) (b_vs (k_extra l))); [|discriminate].
    destruct (new_seq true (b_ts (k_info l)) (b_vs (k_info l))); [|discriminate]. injection A2 as <-. cbn.
    unfold new_seq in E1. destruct (negb _); [discriminate|]. destruct (steps_ok _); [|discriminate]. injection E1 as <-. split; reflexivity. }
  rewrite (proj1 TS), (proj2 TS), <- Rd, <- Rd1. apply in_combine_map. exact Il.
Qed.

Theorem C108_entries_stay : forall H (cfg : hconfig H) s0 s s' p t r,
  about_to_run s0 -> reached cfg s0 s -> later cfg s s' -> logged s p t r ->
  logged s' p t r /\ m_x (t_mem s') r = m_x (t_mem s) r.
Proof.
  intros H cfg s0 s s' p t r A R L G0. destruct (reached_good cfg s0 s A R) as (upd & G & N & K).
  destruct (later_kept cfg _ _ _ _ G N L) as (K1 & _). exact (kept_logged (t_mem s0) _ _ _ _ _ _ G K1 G0).
Qed.

(** Non-vacuity: two players start from the same state object; one agent writes
    100 into every state it is shown, the other keeps one commands object and
    changes it.  The run ends, with a collision, and the log is right. *)

Example C108_ex : about_to_run shared_start /\
  (exists s, h_init_run ex_cfg shared_start = Ok s /\ t_term s = false /\ In 1 (akeys (t_players s))) /\
  (exists s' l, h_run ex_cfg 9 shared_start = Some (Ok s') /\ dget (t_log s') 1 = Some l /\
     read_states s' l = [(qz 0, qz 0); (qz 1, qz 11); (qz 2, qz 13); (qz 3, qz 16)] /\ length (t_reports s') = 1).
Proof.
  split; [exact shared_start_ok|]. split; [exists (after_init shared_start); split; [exact shared_init|split; [vm_compute; reflexivity|vm_compute; right; left; reflexivity]]|].
  exists (end_of shared_start), (log_of (end_of shared_start) 1). split; [exact shared_run|]. split; [apply log_of_eq; vm_compute; reflexivity|]. split; [exact shared_log|vm_compute; reflexivity].
Qed.

(** C109.  Agents reach the states only through the commands they return. *)

Theorem C109_states_move_by_commands : forall H (cfg : hconfig H) s0 s s1 s2 p,
  about_to_run s0 -> reached cfg s0 s -> h_pre_update cfg s = Ok s1 -> h_update cfg s1 = Ok s2 ->
  (In p (akeys (t_players s)) ->
     exists r b u r' b', dget (t_models s) p = Some (r, b) /\ dget (t_models s2) p = Some (r', b') /\
       h_step H (m_x (t_mem s) r, b) u (dt (hc_param cfg)) = Ok (m_x (t_mem s2) r', b')) /\
  (~ In p (akeys (t_players s)) -> state_of s2 p = state_of s p).
Proof.
  intros H cfg s0 s s1 s2 p A R Q1 Q2. destruct (reached_good cfg s0 s A R) as (upd & G & N & K).
  destruct (pre_update_spec cfg _ _ _ _ G Q1) as (G1 & _ & Md & Pl & _ & _ & _ & Nx & Rd).
  destruct (update_spec cfg _ _ _ _ G1 ltac:(rewrite Pl; exact N) Q2) as (G2 & _ & St & _ & _ & _ & _ & _ & Fr & Mv).
  rewrite Pl in *. split; intro I.
  - destruct (Mv p I) as (r & b & E & (u & r' & b' & E' & S) & _). rewrite Md in E.
    exists r, b, u, r', b'. split; [exact E|]. split; [exact E'|]. rewrite <- S. do 2 f_equal. symmetry. apply Rd.
    apply (i_models _ _ _ _ _ G _ _ _ E).
  - unfold state_of. rewrite (Fr p I), Md. destruct (dget (t_models s) p) as [[r b]|] eqn:E; [|reflexivity]. cbn. f_equal.
    rewrite <- (Rd r) by apply (i_models _ _ _ _ _ G _ _ _ E).
    apply (proj2 St); apply (i_models _ _ _ _ _ G1 p r b); rewrite Md; exact E.
Qed.

Theorem C109_start_states_untouched : forall H (cfg : hconfig H) s0 s r,
  about_to_run s0 -> reached cfg s0 s -> r < m_nx (t_mem s0) -> ~ In r (m_seen (t_mem s0)) ->
  m_x (t_mem s) r = m_x (t_mem s0) r.
Proof.
  intros H cfg s0 s r A R L N. destruct (reached_good cfg s0 s A R) as (upd & G & _). exact (i_frozen _ _ _ _ _ G r L N).
Qed.

(** Non-vacuity: the content of the shared start object is 0 before and after. *)

Example C109_ex : about_to_run shared_start /\ state_of shared_start 0 = Some (qz 0) /\ state_of shared_start 1 = Some (qz 0) /\
  (exists s s1 s2, reached ex_cfg shared_start s /\ h_pre_update ex_cfg s = Ok s1 /\ h_update ex_cfg s1 = Ok s2 /\ state_of s2 1 = Some (qz 1)) /\
  0 < m_nx (t_mem shared_start) /\ ~ In 0 (m_seen (t_mem shared_start)) /\
  m_x (t_mem (end_of shared_start)) 0 = qz 0.
Proof.
  split; [exact shared_start_ok|]. split; [reflexivity|]. split; [reflexivity|]. split.
  { exists (after_init shared_start), shared_seen, shared_next.
    split; [apply reached_init; exact shared_init|]. split; [exact shared_pre|]. split; [exact shared_update|exact shared_moved]. }
  split; [exact (Nat.lt_0_succ 0)|]. split; [intros []|]. exact shared_kept.
Qed.

(** C110.  Every time commands are due, the agents are shown new objects with
    the states of the moment: what an agent did to the objects it was given
    before makes no difference. *)

Lemma observe_spec {H} (l : list player) : forall (s : hst H) obs s' obs',
  (forall p r b, dget (t_models s) p = Some (r, b) -> r < m_nx (t_mem s)) ->
  rfold h_observe (s, obs) l = Ok (s', obs') ->
  t_models s' = t_models s /\ m_nx (t_mem s) <= m_nx (t_mem s') /\ (forall r, r < m_nx (t_mem s) -> m_x (t_mem s') r = m_x (t_mem s) r) /\
  akeys obs' = akeys obs ++ l /\
  forall p r f, In (p, (r, f)) obs' -> In (p, (r, f)) obs \/ (m_nx (t_mem s) <= r /\ r < m_nx (t_mem s') /\ state_of s p = Some (m_x (t_mem s') r)).
Proof.
  induction l as [|p l IH]; intros s obs s' obs' MD Q; cbn [rfold] in Q.
  - injection Q as <- <-. split; [reflexivity|]. split; [lia|]. split; [reflexivity|]. rewrite app_nil_r. split; [reflexivity|]. intros; left; assumption.
  - unfold h_observe at 1 in Q. destruct (agetE Nat.eqb (t_models s) p) as [[r b]|] eqn:Em; [|discriminate]. apply agetE_Ok in Em.
    unfold h_get_state in Q. cbn [new_x] in Q. apply IH in Q; [|cbn; intros q rq bq E; specialize (MD q rq bq E); lia].
    cbn in Q. destruct Q as (Q1 & Q2 & Q3 & Q4 & Q5). split; [exact Q1|]. split; [lia|]. split; [|split].
    + intros q L. rewrite Q3 by lia. apply put_other; lia.
    + rewrite Q4. unfold akeys. rewrite map_app, <- app_assoc. reflexivity.
    + intros q rq f I. destruct (Q5 q rq f I) as [I'|(L1 & L2 & E)].
      * apply in_app_or in I' as [I'|[I'|[]]]; [left; exact I'|]. injection I' as <- <- _. right. split; [lia|]. split; [lia|].
        unfold state_of. rewrite Em. cbn. f_equal. rewrite Q3 by lia. symmetry; apply put_same.
      * right. split; [lia|]. split; [exact L2|]. rewrite <- E. unfold state_of. cbn.
        destruct (dget (t_models s) q) as [[rq' bq]|] eqn:Eq; [|reflexivity]. cbn. f_equal. symmetry. apply put_other. specialize (MD q rq' bq Eq). lia.
Qed.

Theorem C110_shown_states : forall H (cfg : hconfig H) s0 s s1,
  about_to_run s0 -> reached cfg s0 s -> h_need cfg s = true -> h_pre_update cfg s = Ok s1 ->
  akeys (o_players (t_obs s1)) = akeys (t_players s) /\ o_time (t_obs s1) = t_time s /\
  forall p r f, In (p, (r, f)) (o_players (t_obs s1)) -> m_nx (t_mem s) <= r /\ state_of s p = Some (m_x (t_mem s1) r).
Proof.
  intros H cfg s0 s s1 A R N Q. destruct (reached_good cfg s0 s A R) as (upd & G & _).
  unfold h_pre_update in Q. rewrite N in Q. destruct (rfold h_observe (s, []) (akeys (t_players s))) as [[s' obs]|] eqn:E; [|discriminate]. injection Q as <-.
  apply observe_spec in E; [|intros p r b Em; apply (i_models _ _ _ _ _ G p r b Em)]. destruct E as (_ & _ & _ & K & P). cbn.
  split; [exact K|]. split; [reflexivity|]. intros p r f I. destruct (P p r f I) as [[]|(L & _ & E)]. split; assumption.
Qed.

(** But the agents of one instant are shown the same objects: an agent that
    writes to a state changes what the agents asked after it are shown. *)

Theorem C110_same_objects_refuted : exists H (cfg : hconfig H) s0 s s1 s2 p q r f x,
  about_to_run s0 /\ reached cfg s0 s /\ h_pre_update cfg s = Ok s1 /\ akeys (t_players s1) = [p; q] /\
  h_update_player cfg (t_time s1) s1 p = Ok s2 /\ In (p, (r, f)) (o_players (t_obs s2)) /\
  state_of s p = Some x /\ m_x (t_mem s2) r <> x.
Proof.
  pose proof shown_ref as E. destruct (o_players (t_obs shared_half)) as [|[p [r f]] l] eqn:Eo; [discriminate E|]. cbn in E. injection E as -> -> _.
  exists ex_world, ex_cfg, shared_start, (after_init shared_start), shared_seen, shared_half, 0, 1, 1, f, (qz 0).
  split; [exact shared_start_ok|]. split; [apply reached_init; exact shared_init|]. split; [exact shared_pre|]. split; [vm_compute; reflexivity|].
  split; [exact shared_turn|]. split; [rewrite Eo; left; reflexivity|]. split; [reflexivity|]. exact shown_changed.
Qed.

(** The log of commands keeps the objects the agents return: when an agent
    changes the object later, the log changes.  Here the commands in the log are
    not those that moved the player from one logged state to the next. *)

Theorem C110_commands_log_refuted : exists H (cfg : hconfig H) s0 fuel s' p l t u x x',
  about_to_run s0 /\ h_run cfg fuel s0 = Some (Ok s') /\ t_reports s' = [] /\ dt_commands (hc_param cfg) = dt (hc_param cfg) /\
  dget (t_log s') p = Some l /\ In (t, u) (read_commands s' l) /\ In (t, x) (read_states s' l) /\
  In ((t + dt (hc_param cfg))%Qc, x') (read_states s' l) /\
  forall b b', h_step H (x, b) u (dt (hc_param cfg)) <> Ok (x', b').
Proof.
  exists ex_world, ex_cfg, alone_start, 9, (end_of alone_start), 1, (log_of (end_of alone_start) 1), (qz 0), (qz 4), (qz 0), (qz 1).
  split; [exact alone_start_ok|]. split; [exact alone_run|]. split; [vm_compute; reflexivity|]. split; [reflexivity|]. split; [apply log_of_eq; vm_compute; reflexivity|].
  rewrite alone_states, alone_commands. split; [left; reflexivity|]. split; [left; reflexivity|]. split; [change (dt (hc_param ex_cfg)) with (qz 1); replace (qz 0 + qz 1)%Qc with (qz 1) by (apply Qc_is_canon; reflexivity); right; left; reflexivity|].
  intros [] [] E. assert (E' : forall a c : Qc, Ok (a, tt) = Ok (c, tt) -> this a = this c) by (intros a c Q; injection Q as ->; reflexivity). apply E' in E. vm_compute in E. discriminate E.
Qed.

Example C110_ex : about_to_run shared_start /\ reached ex_cfg shared_start (after_init shared_start) /\ h_need ex_cfg (after_init shared_start) = true /\
  (exists s1, h_pre_update ex_cfg (after_init shared_start) = Ok s1 /\ akeys (o_players (t_obs s1)) = [0; 1]).
Proof.
  split; [exact shared_start_ok|]. split; [apply reached_init; exact shared_init|]. split; [vm_compute; reflexivity|].
  exists shared_seen. split; [exact shared_pre|vm_compute; reflexivity].
Qed.

(** C111.  With agents and sensors that write to nothing, the program with
    references and the simulator of SimulatorModel, which passes values, do the
    same: same result, and what the references read at the end is what the
    values are. *)

Theorem C111_values_suffice : forall H cmds extra sense_ (cfg : hconfig H) fuel s,
  well_mannered H cmds extra sense_ (t_mem s) -> about_to_run s ->
  match h_run cfg fuel s, run fuel (read_sim H cmds extra sense_ s) (read_ctx H cmds extra sense_ cfg s) with
  | None, None => True
  | Some (Ok s'), Some (Ok v) => cx v = read_ctx H cmds extra sense_ cfg s' /\ sm v = read_sim H cmds extra sense_ s'
  | Some (Err e), Some (Err e') => e = e'
  | _, _ => False
  end.
Proof. intros H cmds extra sense_ cfg fuel s WM A. exact (refines H cmds extra sense_ cfg (t_mem s) WM fuel s A eq_refl). Qed.

Example C111_ex : well_mannered polite_world polite_cmds polite_extra polite_sense (t_mem polite_start) /\ about_to_run polite_start /\
  exists s', h_run polite_cfg 9 polite_start = Some (Ok s').
Proof. split; [exact polite_ok|]. split; [exact polite_start_ok|]. eexists. exact polite_run. Qed.
