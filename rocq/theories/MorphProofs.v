(** Runs of corresponding worlds correspond. *)
From Coq Require Import QArith Qcanon ZArith List Bool Arith Lia.
From Verif Require Import Base Num SeqModel SimulatorModel SimulatorSpec DictLemmas MorphSpec.
Import ListNotations.
Open Scope Qc_scope.

Ltac bb H := match type of H with both _ ?a ?b => destruct a, b; cbn [both] in H; try contradiction; [|subst; reflexivity] end.

Ltac bn H x y := match type of H with both _ ?a ?b => destruct a as [x|], b as [y|]; cbn [both] in H; try contradiction; [|subst; reflexivity] end.

Lemma both_fold {S T A B} (Q : S -> T -> Prop) (L : A -> B -> Prop) (f : S -> A -> result S) (g : T -> B -> result T) :
  (forall s t a b, Q s t -> L a b -> both Q (f s a) (g t b)) -> forall l k, Forall2 L l k -> forall s t, Q s t -> both Q (rfold f s l) (rfold g t k).
Proof.
  intros H l k F. induction F as [|a b l k Hab F IH]; intros s t Hq; cbn [rfold]; [exact Hq|]. pose proof (H s t a b Hq Hab) as X. bb X. apply IH, X.
Qed.

Lemma both_map {A B C D} (L : A -> B -> Prop) (Q : C -> D -> Prop) f g : (forall a b, L a b -> both Q (f a) (g b)) -> forall l k, Forall2 L l k -> both (Forall2 Q) (rmapM f l) (rmapM g k).
Proof.
  intros H l k F. induction F as [|a b l k Hab F IH]; cbn [rmapM]; [constructor|]. pose proof (H a b Hab) as X. bb X. bb IH. constructor; assumption.
Qed.

Lemma shift_ltb a b d : qltb (a + d) (b + d) = qltb a b.
Proof. destruct (qltb_spec a b), (qltb_spec (a + d) (b + d)); try reflexivity; exfalso; qlra. Qed.

Lemma shift_leb a b d : qleb (a + d) (b + d) = qleb a b.
Proof. destruct (qleb_spec a b), (qleb_spec (a + d) (b + d)); try reflexivity; exfalso; qlra. Qed.

Lemma f2_length {A B} (R : A -> B -> Prop) l k : Forall2 R l k -> length k = length l.
Proof. induction 1; cbn; congruence. Qed.

Section Run.
Context {W V : world} (r : relations W V) (rho : player -> player) (delta : Qc).
Context (inj : forall p q, rho p = rho q -> p = q) (co : corresponding r rho delta).
Notation dicts := (dicts rho). Notation times := (times delta).
Notation key := (fun p q => q = rho p).

Lemma eqb_rho p q : Nat.eqb (rho p) (rho q) = Nat.eqb p q.
Proof. destruct (Nat.eqb_spec p q) as [->|N]; [apply Nat.eqb_refl|]. apply Nat.eqb_neq. intro H. apply N, inj, H. Qed.

Section D.
Context {A B : Type} (R : A -> B -> Prop).
Lemma keys_rel d d' : dicts R d d' -> Forall2 key (akeys d) (akeys d').
Proof. unfold akeys. induction 1 as [|[p a] [q b] d d' [H1 H2] _ IH]; cbn; constructor; assumption. Qed.
Lemma dget_rel d d' p : dicts R d d' -> opt R (dget d p) (dget d' (rho p)).
Proof.
  induction 1 as [|[k a] [q b] d d' [H1 H2] _ IH]; cbn in *; [exact I|]. subst q. rewrite !dget_cons, eqb_rho. destruct (Nat.eqb k p); [exact H2|exact IH].
Qed.
Lemma dgetE_rel d d' p : dicts R d d' -> both R (dgetE d p) (dgetE d' (rho p)).
Proof. intro H. pose proof (dget_rel d d' p H) as X. unfold agetE. destruct (dget d p), (dget d' (rho p)); cbn in *; try contradiction; auto. Qed.
Lemma dset_rel d d' p a b : dicts R d d' -> R a b -> dicts R (dset d p a) (dset d' (rho p) b).
Proof.
  intros H Hr. induction H as [|[k x] [q y] d d' [H1 H2] Hd IH]; cbn [fst snd] in *.
  - constructor; [split; [reflexivity|exact Hr]|constructor].
  - subst q. unfold aset; fold (aset (V := A) Nat.eqb); fold (aset (V := B) Nat.eqb). rewrite eqb_rho. destruct (Nat.eqb k p); constructor; try assumption; split; try reflexivity; assumption.
Qed.
Lemma ddel_rel d d' p : dicts R d d' -> dicts R (ddel d p) (ddel d' (rho p)).
Proof.
  intros H. induction H as [|[k x] [q y] d d' [H1 H2] Hd IH]; cbn [fst snd] in *.
  - constructor.
  - subst q. unfold adel; fold (adel (V := A) Nat.eqb); fold (adel (V := B) Nat.eqb). rewrite eqb_rho. destruct (Nat.eqb k p); [exact Hd|]. constructor; [split; [reflexivity|exact H2]|exact IH].
Qed.
Lemma dmem_rel d d' p : dicts R d d' -> dmem d' (rho p) = dmem d p.
Proof. intro H. pose proof (dget_rel d d' p H) as X. unfold dmem. destruct (dget d p), (dget d' (rho p)); cbn in *; try contradiction; reflexivity. Qed.
End D.

(** *** Logs *)
Definition builders {A B} (R : A -> B -> Prop) (b : builder A) (b' : builder B) : Prop := Forall2 times (b_ts b) (b_ts b') /\ Forall2 R (b_vs b) (b_vs b').
Definition loggers (l : plogger W) (k : plogger V) : Prop :=
  builders (on_X r) (lg_states l) (lg_states k) /\ builders (on_U r) (lg_commands l) (lg_commands k) /\ builders (on_E r) (lg_extra l) (lg_extra k) /\ builders (on_I r) (lg_info l) (lg_info k).

Lemma add_rel {A B} (R : A -> B -> Prop) b b' t v v' : builders R b b' -> R v v' -> both (builders R) (b_add b t v) (b_add b' (t + delta) v').
Proof.
  intros [H1 H2] Hv. unfold b_add. assert (X : builders R (mkB (b_ts b ++ [t]) (b_vs b ++ [v])) (mkB (b_ts b' ++ [t + delta]) (b_vs b' ++ [v']))).
  { split; cbn; apply Forall2_app; try assumption; repeat constructor; assumption. }
  assert (Hr : Forall2 times (rev (b_ts b)) (rev (b_ts b'))).
  { clear - H1. induction H1 as [|x y l l' Hx Hl IH]; cbn; [constructor|]. apply Forall2_app; [exact IH|]. repeat constructor. exact Hx. }
  destruct Hr as [|x y l l' Hx _]; [exact X|]. unfold MorphSpec.times in Hx. subst y. rewrite shift_leb. destruct (qleb t x); [reflexivity|exact X].
Qed.

Lemma seq_rel {A B} (R : A -> B -> Prop) b b' : builders R b b' -> both (seqs delta R) (as_sequence b) (as_sequence b').
Proof.
  intros [H1 H2]. unfold as_sequence, new_seq. rewrite (f2_length _ _ _ H1), (f2_length _ _ _ H2). destruct (negb _); [reflexivity|].
  assert (Hs : steps_ok (b_ts b') = steps_ok (b_ts b)).
  { clear - H1. induction H1 as [|x y l l' Hx Hl IH]; [reflexivity|]. destruct Hl as [|x2 y2 l l' Hx2 Hl]; [reflexivity|]. cbn [steps_ok] in *. rewrite IH. unfold MorphSpec.times in *. subst. f_equal. f_equal. f_equal. ring. }
  rewrite Hs. destruct (steps_ok (b_ts b)); [|reflexivity]. cbn. repeat split; assumption.
Qed.

Lemma logger_seq_rel l k : loggers l k -> both (logs_match r delta) (logger_as_sequence l) (logger_as_sequence k).
Proof.
  intros (H1 & H2 & H3 & H4). unfold logger_as_sequence. apply seq_rel in H1, H2, H3, H4. bb H1. bb H2. bb H3. bb H4. cbn. repeat split; try apply H1; try apply H2; try apply H3; try apply H4.
Qed.

Definition sims (m : simulator W) (n : simulator V) : Prop :=
  opt times (s_last m) (s_last n) /\ dicts (on_U r) (s_cmds m) (s_cmds n) /\ dicts loggers (s_logs m) (s_logs n).
Notation cmatch := (ctx_match r rho delta). Notation omatch := (obs_match r rho delta). Notation rmatch := (report_match r rho delta).
Definition K (s : st W) (z : st V) : Prop := cmatch (cx s) (cx z) /\ sims (sm s) (sm z) /\ omatch (s_obs (sm s)) (s_obs (sm z)).
(** At the start of an iteration the old observation may be that of nobody. *)
Definition K0 (s : st W) (z : st V) : Prop := cmatch (cx s) (cx z) /\ sims (sm s) (sm z) /\ (s_last (sm s) = None \/ omatch (s_obs (sm s)) (s_obs (sm z))).

Ltac cm := unfold ctx_match; cbn; repeat (first [assumption | split]).
Lemma cm_models c d a b : cmatch c d -> dicts (on_M r) a b -> cmatch (set_models c a) (set_models d b).
Proof. intros (H1&H2&H3&H4&H5&H6&H7&H8&H9&H10&H11&H12&H13&H14&H15&H16) H. cm. Qed.
Lemma cm_players c d a b : cmatch c d -> dicts (on_A r) a b -> cmatch (set_players c a) (set_players d b).
Proof. intros (H1&H2&H3&H4&H5&H6&H7&H8&H9&H10&H11&H12&H13&H14&H15&H16) H. cm. Qed.
Lemma cm_sensors c d a b : cmatch c d -> dicts (on_S r) a b -> cmatch (set_sensors c a) (set_sensors d b).
Proof. intros (H1&H2&H3&H4&H5&H6&H7&H8&H9&H10&H11&H12&H13&H14&H15&H16) H. cm. Qed.
Lemma cm_log c d a b : cmatch c d -> dicts (logs_match r delta) a b -> cmatch (set_log c a) (set_log d b).
Proof. intros (H1&H2&H3&H4&H5&H6&H7&H8&H9&H10&H11&H12&H13&H14&H15&H16) H. cm. Qed.
Lemma cm_time c d a b : cmatch c d -> times a b -> cmatch (set_time c a) (set_time d b).
Proof. intros (H1&H2&H3&H4&H5&H6&H7&H8&H9&H10&H11&H12&H13&H14&H15&H16) H. cm. Qed.
Lemma cm_term c d a b : cmatch c d -> b = a -> cmatch (set_term c a) (set_term d b).
Proof. intros (H1&H2&H3&H4&H5&H6&H7&H8&H9&H10&H11&H12&H13&H14&H15&H16) H. cm. Qed.
Lemma cm_reports c d a b f g : cmatch c d -> Forall2 rmatch a b -> opt times f g -> cmatch (set_reports c a f) (set_reports d b g).
Proof. intros (H1&H2&H3&H4&H5&H6&H7&H8&H9&H10&H11&H12&H13&H14&H15&H16) H H'. cm. Qed.

Section C.
Context {c : ctx W} {d : ctx V} (H : cmatch c d).
Lemma c_scen : on_scen r (g_scen (c_cfg c)) (g_scen (c_cfg d)). Proof. apply H. Qed.
Lemma c_dt : dt (g_param (c_cfg d)) = dt (g_param (c_cfg c)). Proof. apply H. Qed.
Lemma c_dtc : dt_commands (g_param (c_cfg d)) = dt_commands (g_param (c_cfg c)). Proof. apply H. Qed.
Lemma c_max : max_sim_time (g_param (c_cfg d)) = max_sim_time (g_param (c_cfg c)) + delta. Proof. apply H. Qed.
Lemma c_aft : after_collision (g_param (c_cfg d)) = after_collision (g_param (c_cfg c)). Proof. apply H. Qed.
Lemma c_mis : dicts (on_G r) (g_missions (c_cfg c)) (g_missions (c_cfg d)). Proof. apply H. Qed.
Lemma c_def : g_sensors_default (c_cfg d) = g_sensors_default (c_cfg c). Proof. apply H. Qed.
Lemma c_sed : g_seed (c_cfg d) = g_seed (c_cfg c). Proof. apply H. Qed.
Lemma c_mod : dicts (on_M r) (c_models c) (c_models d). Proof. apply H. Qed.
Lemma c_pla : dicts (on_A r) (c_players c) (c_players d). Proof. apply H. Qed.
Lemma c_sen : dicts (on_S r) (c_sensors c) (c_sensors d). Proof. apply H. Qed.
Lemma c_lgs : dicts (logs_match r delta) (c_log c) (c_log d). Proof. apply H. Qed.
Lemma c_tim : c_time d = c_time c + delta. Proof. apply H. Qed.
Lemma c_ter : c_term d = c_term c. Proof. apply H. Qed.
Lemma c_rep : Forall2 rmatch (c_reports c) (c_reports d). Proof. apply H. Qed.
Lemma c_fir : opt times (c_first c) (c_first d). Proof. apply H. Qed.
End C.

Lemma need_rel (s : st W) (z : st V) : cmatch (cx s) (cx z) -> opt times (s_last (sm s)) (s_last (sm z)) -> need_commands z = need_commands s.
Proof.
  intros H L. unfold need_commands, time, param. destruct (s_last (sm s)) as [t|], (s_last (sm z)) as [u|]; cbn in L; try contradiction; [|reflexivity].
  unfold MorphSpec.times in L. subst u. rewrite (c_dtc H), (c_tim H). f_equal. ring.
Qed.

Lemma pre_rel s z : K0 s z -> both K (pre_update s) (pre_update z).
Proof.
  intros (C & (S1 & S2 & S3) & O). unfold pre_update. rewrite (need_rel s z C S1). destruct (need_commands s) eqn:En.
  - assert (X : both (Forall2 (pairs_of key (pairs_of (on_X r) (on_F r)))) (rmapM (observe (c_models (cx s))) (akeys (c_players (cx s)))) (rmapM (observe (c_models (cx z))) (akeys (c_players (cx z))))).
    { apply both_map with (L := key); [|apply keys_rel with (R := on_A r), C]. intros p q ->. unfold observe. pose proof (dgetE_rel (on_M r) _ _ p (c_mod C)) as X. bb X. split; [reflexivity|]. split; [apply (wc_get_state _ _ _ co), X|apply (wc_footprint _ _ _ co), X]. }
    bb X. split; [exact C|]. split; [split; [|split]; assumption|]. split; [exact X|]. apply (c_tim C).
  - split; [exact C|]. split; [split; [|split]; assumption|]. destruct O as [O|O]; [|exact O]. unfold need_commands in En. rewrite O in En. discriminate.
Qed.

Lemma sensor_rel c d p : cmatch c d -> both (on_S r) (get_sensor c p) (get_sensor d (rho p)).
Proof.
  intro C. unfold get_sensor. pose proof (dget_rel (on_S r) _ _ p (c_sen C)) as X. destruct (dget (c_sensors c) p), (dget (c_sensors d) (rho p)); cbn in X; try contradiction; [exact X|].
  rewrite (c_def C). destruct (g_sensors_default (c_cfg c)); [apply (wc_id _ _ _ co)|reflexivity].
Qed.

Lemma logger_rel s z p f g : K s z -> (forall l k, loggers l k -> both loggers (f l) (g k)) -> both K (with_logger s p f) (with_logger z (rho p) g).
Proof.
  intros (C & (S1 & S2 & S3) & O) H. unfold with_logger. pose proof (dgetE_rel loggers _ _ p S3) as X. bb X. pose proof (H _ _ X) as Y. bb Y.
  split; [exact C|]. split; [|exact O]. split; [exact S1|]. split; [exact S2|]. cbn. apply dset_rel; assumption.
Qed.

Lemma lstate_rel t x y l k : on_X r x y -> loggers l k -> both loggers (log_state t x l) (log_state (t + delta) y k).
Proof. intros H (H1 & H2 & H3 & H4). unfold log_state. pose proof (add_rel (on_X r) _ _ t x y H1 H) as X. bb X. repeat split; cbn; try apply X; try apply H2; try apply H3; try apply H4. Qed.
Lemma lcommand_rel t x y l k : on_U r x y -> loggers l k -> both loggers (log_command t x l) (log_command (t + delta) y k).
Proof. intros H (H1 & H2 & H3 & H4). unfold log_command. pose proof (add_rel (on_U r) _ _ t x y H2 H) as X. bb X. repeat split; cbn; try apply X; try apply H1; try apply H3; try apply H4. Qed.
Lemma linfo_rel t x y l k : on_I r x y -> loggers l k -> both loggers (log_info t x l) (log_info (t + delta) y k).
Proof. intros H (H1 & H2 & H3 & H4). unfold log_info. pose proof (add_rel (on_I r) _ _ t x y H4 H) as X. bb X. repeat split; cbn; try apply X; try apply H1; try apply H3; try apply H2. Qed.
Lemma lextra_rel t x y l k : on_E r x y -> loggers l k -> both loggers (log_extra t x l) (log_extra (t + delta) y k).
Proof. intros H (H1 & H2 & H3 & H4). unfold log_extra. pose proof (add_rel (on_E r) _ _ t x y H3 H) as X. bb X. repeat split; cbn; try apply X; try apply H1; try apply H2; try apply H4. Qed.

Lemma ask_rel s z p t : K s z -> both K (ask s p t) (ask z (rho p) (t + delta)).
Proof.
  intros (C & (S1 & S2 & S3) & O). unfold ask. pose proof (sensor_rel _ _ p C) as X. bb X.
  pose proof (wc_sense _ _ _ co _ _ _ _ _ _ p X (c_scen C) O) as Y. bn Y y1 y2. destruct y1 as [f' o], y2 as [h' o']. destruct Y as [Y1 Y2]. cbn [fst snd] in *.
  pose proof (dgetE_rel (on_A r) _ _ p (c_pla C)) as Z. bn Z za zb. pose proof (wc_cmds _ _ _ co _ _ _ _ Z Y2) as Q. bn Q q1 q2. destruct q1 as [a1 u1], q2 as [b1 v1]. destruct Q as [Q1 Q2]. cbn [fst snd] in *. cbv zeta.
  match goal with |- context [with_logger ?s1 p (log_command t u1)] => match goal with |- context [with_logger ?z1 (rho p) (log_command (t + delta) v1)] => assert (K1 : K s1 z1) end end.
  { split; [|split; [|exact O]]; cbn; [apply cm_players; [apply cm_sensors; [exact C|apply dset_rel; [apply C|exact Y1]]|apply dset_rel; [apply C|exact Q1]]|]. split; [exact S1|]. split; [|exact S3]. cbn. apply dset_rel; assumption. }
  pose proof (logger_rel _ _ p (log_command t u1) (log_command (t + delta) v1) K1 (fun l k => lcommand_rel t u1 v1 l k Q2)) as K2. bn K2 sa sb.
  pose proof (logger_rel _ _ p _ _ K2 (fun l k => linfo_rel t _ _ l k (wc_cpu _ _ _ co p t))) as K3. bn K3 s1 s2.
  pose proof (wc_extra _ _ _ co _ _ Q1) as E. bn E e1 e2. destruct e1 as [a2 x2], e2 as [b2 y2]. destruct E as [E1 E2]. cbn [fst snd] in *.
  assert (K4 : K (upd_cx s1 (set_players (cx s1) (dset (c_players (cx s1)) p a2))) (upd_cx s2 (set_players (cx s2) (dset (c_players (cx s2)) (rho p) b2)))).
  { destruct K3 as (C3 & S33 & O3). split; [|split; assumption]. cbn. apply cm_players; [exact C3|]. apply dset_rel; [apply C3|exact E1]. }
  destruct x2 as [x2|], y2 as [y2|]; cbn in E2; try contradiction; [|exact K4]. apply logger_rel; [exact K4|]. intros l k. apply lextra_rel. exact E2.
Qed.

Lemma player_rel t s z p : K s z -> both K (update_player t s p) (update_player (t + delta) z (rho p)).
Proof.
  intros Hk. unfold update_player. pose proof (dgetE_rel (on_M r) _ _ p (c_mod (proj1 Hk))) as X. bb X.
  pose proof (logger_rel _ _ p _ _ Hk (fun l k => lstate_rel t _ _ l k (wc_get_state _ _ _ co _ _ X))) as K1. bn K1 s0 s1.
  rewrite (need_rel s0 s1 (proj1 K1) (proj1 (proj1 (proj2 K1)))).
  assert (K2 : both K (if need_commands s0 then ask s0 p t else Ok s0) (if need_commands s0 then ask s1 (rho p) (t + delta) else Ok s1)) by (destruct (need_commands s0); [apply ask_rel; exact K1|exact K1]).
  bn K2 s2 s3. pose proof (dgetE_rel (on_U r) _ _ p (proj1 (proj2 (proj1 (proj2 K2))))) as Y. bb Y. pose proof (dgetE_rel (on_M r) _ _ p (c_mod (proj1 K2))) as Z. bb Z.
  unfold param. rewrite (c_dt (proj1 K2)). pose proof (wc_step _ _ _ co _ _ _ _ (dt (g_param (c_cfg (cx s2)))) Z Y) as Q. bb Q.
  destruct K2 as (C & S & O). split; [|split; assumption]. cbn. apply cm_models; [exact C|]. apply dset_rel; [apply C|exact Q].
Qed.

Lemma update_rel s z : K s z -> both K (update s) (update z).
Proof.
  intro Hk. unfold update, time. rewrite (c_tim (proj1 Hk)).
  pose proof (both_fold K key (update_player (c_time (cx s))) (update_player (c_time (cx s) + delta)) (fun s z a b H E => eq_ind_r (fun b => both K (update_player _ s a) (update_player _ z b)) (player_rel _ s z a H) E) _ _ (keys_rel (on_A r) _ _ (c_pla (proj1 Hk))) s z Hk) as X.
  bn X s0 s1. destruct X as (C & (S1 & S2 & S3) & O). rewrite (need_rel s0 s1 C S1). destruct (need_commands s0); [|split; [|split; [split; [|split]|]]; assumption].
  split; [exact C|]. split; [split; [reflexivity|split; assumption]|exact O].
Qed.

Lemma remove_rel s z : K s z -> both K (remove_finished s) (remove_finished z).
Proof.
  intro Hk. unfold remove_finished. refine (both_fold K (pairs_of key (on_G r)) _ _ _ _ _ (c_mis (proj1 Hk)) s z Hk). clear s z Hk.
  intros s z [p g] [q h] Hk [E Hg]. cbn [fst snd] in *. subst q. unfold remove_finished1. rewrite (dmem_rel (on_A r) _ _ p (c_pla (proj1 Hk))). destruct (dmem (c_players (cx s)) p); [|exact Hk].
  pose proof (dgetE_rel (on_M r) _ _ p (c_mod (proj1 Hk))) as X. bb X. cbv zeta. unfold time. rewrite (c_tim (proj1 Hk)), (wc_done _ _ _ co _ _ _ _ (c_time (cx s)) Hg (wc_get_state _ _ _ co _ _ X)).
  destruct (goal_done W g _ _) as [[]|]; [|exact Hk|reflexivity].
  pose proof (logger_rel _ _ p _ _ Hk (fun l k => lstate_rel (c_time (cx s)) _ _ l k (wc_get_state _ _ _ co _ _ X))) as K1. bb K1.
  destruct K1 as (C & S & O). split; [|split; assumption]. cbn. apply cm_players; [exact C|]. apply ddel_rel. apply C.
Qed.

Lemma term_rel c d : cmatch c d -> termination d = termination c.
Proof.
  intro C. unfold termination. rewrite (c_max C), (c_tim C), shift_ltb, (c_aft C).
  assert (P : past_collision (c_time c + delta) (c_first d) (after_collision (g_param (c_cfg c))) = past_collision (c_time c) (c_first c) (after_collision (g_param (c_cfg c)))).
  { pose proof (c_fir C) as F. unfold past_collision. destruct (c_first c) as [f|], (c_first d) as [f'|]; cbn in F; try contradiction; [|reflexivity]. unfold MorphSpec.times in F. subst f'. replace (f + delta + after_collision (g_param (c_cfg c))) with (f + after_collision (g_param (c_cfg c)) + delta) by ring. apply shift_ltb. }
  rewrite P. assert (E : match c_players d with [] => true | _ => false end = match c_players c with [] => true | _ => false end) by (destruct (c_pla C); reflexivity). rewrite E. cbv zeta.
  destruct (negb _); [|reflexivity]. pose proof (c_mis C) as M. assert (X : forallb (fun pn => negb (dmem (c_players d) pn)) (akeys (g_missions (c_cfg d))) = forallb (fun pn => negb (dmem (c_players c) pn)) (akeys (g_missions (c_cfg c)))).
  { pose proof (keys_rel _ _ _ M) as Ks. induction Ks as [|p q l l' -> _ IH]; [reflexivity|]. cbn. rewrite IH, (dmem_rel (on_A r) _ _ p (c_pla C)). reflexivity. }
  destruct M; [reflexivity|exact X].
Qed.

Lemma earlier_rel t f g : opt times f g -> opt times (earlier t f) (earlier (t + delta) g).
Proof. destruct f as [f|], g as [g|]; cbn; try contradiction; [|reflexivity]. intro H. unfold MorphSpec.times in H. subst g. rewrite shift_ltb. destruct (qltb t f); reflexivity. Qed.

Lemma env1_rel p s z i : K s z -> both K (check_env1 p s i) (check_env1 (rho p) z i).
Proof.
  intro Hk. unfold check_env1. pose proof (dgetE_rel (on_M r) _ _ p (c_mod (proj1 Hk))) as X. bn X w w0.
  assert (Y : both (on_O r) (item (obstacles W (g_scen (c_cfg (cx s)))) i) (item (obstacles V (g_scen (c_cfg (cx z)))) i)).
  { pose proof (wc_obstacles _ _ _ co _ _ (c_scen (proj1 Hk))) as L. unfold item. revert i. induction L as [|a b l l' Hab L IH]; intros [|i]; cbn; auto. }
  bn Y w1 w2. unfold time. rewrite (c_tim (proj1 Hk)). pose proof (wc_resolve_env _ _ _ co p _ _ (c_time (cx s)) _ _ Y X) as Q.
  destruct (resolve_env W p w1 (c_time (cx s)) w) as [m' out], (resolve_env V (rho p) w2 (c_time (cx s) + delta) w0) as [n' out']. destruct Q as [Q1 Q2]. cbn [fst snd] in *. cbv zeta.
  destruct Hk as (C & S & O).
  match goal with |- both K _ _ => idtac end.
  assert (K1 : K (mkSt (set_models (cx s) (dset (c_models (cx s)) p m')) (sm s) (EEnv p i (c_time (cx s)) (is_dyn W m') out :: ev s)) (mkSt (set_models (cx z) (dset (c_models (cx z)) (rho p) n')) (sm z) (EEnv (rho p) i (c_time (cx s) + delta) (is_dyn V n') out' :: ev z))).
  { split; [|split; assumption]. cbn. apply cm_models; [exact C|]. apply dset_rel; [apply C|exact Q1]. }
  assert (R : both (opt rmatch) (match out with Ok r0 => Ok r0 | Err CollisionException => Ok (Some (mkRep [p] (c_time (cx s)) None)) | Err e => Err e end) (match out' with Ok r0 => Ok r0 | Err CollisionException => Ok (Some (mkRep [rho p] (c_time (cx s) + delta) None)) | Err e => Err e end)).
  { destruct out as [x|e], out' as [x'|e']; cbn in Q2; try contradiction; [exact Q2|]. subst e'. destruct e; try reflexivity. cbn. repeat split. }
  bn R o o0. destruct o as [a|], o0 as [b|]; cbn in R; try contradiction; [|exact K1]. rewrite (wc_is_dyn _ _ _ co _ _ Q1). destruct (is_dyn W m'); [exact K1|].
  destruct K1 as (C1 & S1 & O1). split; [|split; assumption]. cbn. apply cm_reports; [exact C1| |apply earlier_rel, C]. apply Forall2_app; [apply C|]. repeat constructor; apply R.
Qed.

Lemma env_rel s z : K s z -> both K (check_env s) (check_env z).
Proof.
  intro Hk. unfold check_env. refine (both_fold K key _ _ _ _ _ (keys_rel (on_A r) _ _ (c_pla (proj1 Hk))) s z Hk). clear s z Hk. intros s z p q Hk ->. unfold check_env_player.
  pose proof (dgetE_rel (on_M r) _ _ p (c_mod (proj1 Hk))) as X. bb X. rewrite (wc_query _ _ _ co _ _ _ _ (c_scen (proj1 Hk)) (wc_footprint _ _ _ co _ _ X)).
  refine (both_fold K eq _ _ _ _ _ _ s z Hk); [intros s0 z0 i j H <-; apply env1_rel; exact H|]. induction (env_query W _ _); constructor; auto.
Qed.

Lemma pair_rel s z p q : K s z -> both K (check_pair s (p, q)) (check_pair z (rho p, rho q)).
Proof.
  intro Hk. unfold check_pair. pose proof (dgetE_rel (on_M r) _ _ p (c_mod (proj1 Hk))) as X. bn X w w0. pose proof (dgetE_rel (on_M r) _ _ q (c_mod (proj1 Hk))) as Y. bn Y w1 w2.
  rewrite (wc_intersects _ _ _ co _ _ _ _ (wc_footprint _ _ _ co _ _ X) (wc_footprint _ _ _ co _ _ Y)). destruct (intersects W _ _); [|exact Hk].
  unfold time. rewrite (c_tim (proj1 Hk)). pose proof (wc_resolve _ _ _ co _ _ p q (c_time (cx s)) _ _ _ _ (c_scen (proj1 Hk)) X Y) as Q.
  destruct (resolve W _ p q (c_time (cx s)) w w1) as [[a' b'] out], (resolve V _ (rho p) (rho q) (c_time (cx s) + delta) w0 w2) as [[c' d'] out']. destruct Q as [[Q1 Q1'] Q2]. cbn [fst snd] in *. cbv zeta.
  destruct Hk as (C & S & O).
  assert (K1 : K (mkSt (set_models (cx s) (dset (dset (c_models (cx s)) p a') q b')) (sm s) (EPair p q (c_time (cx s)) out :: ev s)) (mkSt (set_models (cx z) (dset (dset (c_models (cx z)) (rho p) c') (rho q) d')) (sm z) (EPair (rho p) (rho q) (c_time (cx s) + delta) out' :: ev z))).
  { split; [|split; assumption]. cbn. apply cm_models; [exact C|]. apply dset_rel; [apply dset_rel; [apply C|exact Q1]|exact Q1']. }
  assert (R : both (opt rmatch) (match out with Ok r0 => Ok r0 | Err CollisionException => Ok (Some (mkRep [p; q] (c_time (cx s)) None)) | Err e => Err e end) (match out' with Ok r0 => Ok r0 | Err CollisionException => Ok (Some (mkRep [rho p; rho q] (c_time (cx s) + delta) None)) | Err e => Err e end)).
  { destruct out as [x|e], out' as [x'|e']; cbn in Q2; try contradiction; [exact Q2|]. subst e'. destruct e; try reflexivity. cbn. repeat split. }
  bn R o o0. destruct o as [a|], o0 as [b|]; cbn in R; try contradiction; [|exact K1].
  destruct K1 as (C1 & S1 & O1). split; [|split; assumption]. cbn. pose proof R as (_ & Rt & _). unfold MorphSpec.times in Rt. rewrite Rt. apply cm_reports; [exact C1| |apply earlier_rel, C]. apply Forall2_app; [apply C|]. repeat constructor; apply R.
Qed.

Lemma combos_rel l l' : Forall2 key l l' -> Forall2 (pairs_of key key) (combinations2 l) (combinations2 l').
Proof.
  induction 1 as [|p q l l' -> H IH]; cbn; [constructor|]. apply Forall2_app; [|exact IH]. clear IH. induction H as [|a b l l' -> H IH]; cbn; constructor; [split; reflexivity|exact IH].
Qed.

Lemma post_rel s z : K s z -> both K (post_update s) (post_update z).
Proof.
  intros (C & S & O). unfold post_update.
  assert (K1 : K (upd_cx s (set_time (cx s) (time s + dt (param s)))) (upd_cx z (set_time (cx z) (time z + dt (param z))))).
  { split; [|split; assumption]. cbn. apply cm_time; [exact C|]. unfold MorphSpec.times, time, param. rewrite (c_tim C), (c_dt C). ring. }
  pose proof (remove_rel _ _ K1) as X. bn X s0 s1. cbv zeta. destruct X as (C1 & S1 & O1).
  assert (K2 : K (maybe_terminate s0) (maybe_terminate s1)). { split; [|split; assumption]. cbn. apply cm_term; [exact C1|]. apply term_rel. exact C1. }
  rewrite (c_ter (proj1 K2)). destruct (c_term (cx (maybe_terminate s0))); [exact K2|]. pose proof (env_rel _ _ K2) as Y. bb Y.
  unfold check_players. refine (both_fold K (pairs_of key key) _ _ _ _ _ (combos_rel _ _ (keys_rel (on_A r) _ _ (c_pla (proj1 Y)))) _ _ Y). intros sa sb [p q] [p' q'] H [E1 E2]. cbn in E1, E2. subst. apply pair_rel. exact H.
Qed.

Lemma step_rel s z : K0 s z -> both K0 (step s) (step z).
Proof.
  intro H. unfold step. pose proof (pre_rel s z H) as X. bn X s0 s1. pose proof (update_rel _ _ X) as Y. bn Y s2 s3. pose proof (post_rel _ _ Y) as Z. destruct (post_update s2), (post_update s3); cbn in *; try assumption. destruct Z as (Z1 & Z2 & Z3). split; [exact Z1|]. split; [exact Z2|right; exact Z3].
Qed.

Lemma init_rel c d m n : cmatch c d -> sims m n -> (s_last m = None \/ omatch (s_obs m) (s_obs n)) -> both K0 (init_run c m) (init_run d n).
Proof.
  intros C S O. unfold init_run. refine (both_fold K0 key _ _ _ _ _ (keys_rel (on_A r) _ _ (c_pla C)) _ _ _); [|split; [exact C|split; assumption]].
  clear - inj co. intros s z p q (C & (S1 & S2 & S3) & O) ->. unfold init_player. pose proof (dgetE_rel (on_A r) _ _ p (c_pla C)) as X. bb X. pose proof (dgetE_rel (on_M r) _ _ p (c_mod C)) as Y. bb Y.
  rewrite (c_sed C). pose proof (wc_init _ _ _ co _ _ p (g_seed (c_cfg (cx s))) _ _ _ _ _ _ X (c_scen C) (dget_rel (on_G r) _ _ p (c_mis C)) Y) as Q. bb Q.
  split; [|split; [|exact O]]; cbn; [apply cm_players; [exact C|]; apply dset_rel; [apply C|exact Q]|]. split; [exact S1|]. split; [exact S2|]. cbn. apply dset_rel; [exact S3|]. repeat split; constructor.
Qed.

Definition oboth {A B} (R : A -> B -> Prop) (a : option (result A)) (b : option (result B)) : Prop := opt (both R) a b.

Lemma loop_rel fuel : forall s z, K0 s z -> oboth K0 (loop fuel s) (loop fuel z).
Proof.
  induction fuel as [|fuel IH]; intros s z H; cbn [loop]; rewrite (c_ter (proj1 H)); destruct (c_term (cx s)); try exact H; [exact I|].
  pose proof (step_rel s z H) as X. destruct (step s), (step z); cbn in X; try contradiction; [apply IH; exact X|exact X].
Qed.

Lemma write_rel s z : K0 s z -> both K0 (write_logs s) (write_logs z).
Proof.
  intro H. unfold write_logs. refine (both_fold K0 key _ _ _ _ _ (keys_rel (on_M r) _ _ (c_mod (proj1 H))) s z H). clear - inj co. intros s z p q (C & (S1 & S2 & S3) & O) ->. unfold write_log.
  pose proof (dgetE_rel loggers _ _ p S3) as X. bb X. apply logger_seq_rel in X. bb X. split; [|split; [split; [|split]|]; assumption]. cbn. apply cm_log; [exact C|]. apply dset_rel; [apply C|exact X].
Qed.

Lemma run_rel fuel c d m n : cmatch c d -> sims m n -> (s_last m = None \/ omatch (s_obs m) (s_obs n)) -> oboth K0 (run fuel m c) (run fuel n d).
Proof.
  intros C S O. unfold run. pose proof (init_rel c d m n C S O) as X. destruct (init_run c m) as [s|], (init_run d n) as [z|]; cbn in X; try contradiction; [|exact X].
  pose proof (loop_rel fuel s z X) as Y. destruct (loop fuel s) as [[s1|]|], (loop fuel z) as [[z1|]|]; cbn in Y; try contradiction; [|exact Y|exact I]. cbn. apply write_rel. exact Y.
Qed.

Lemma after_rel s0 z0 k s : K0 s0 z0 -> after s0 k s -> exists z, after z0 k z /\ K0 s z.
Proof.
  intros H A. induction A as [|k s s' A (z & A' & Hk) T St]; [exists z0; split; [constructor|exact H]|].
  pose proof (step_rel s z Hk) as X. rewrite St in X. destruct (step z) as [z'|] eqn:Ez; cbn in X; [|contradiction]. exists z'. split; [|exact X]. econstructor; [exact A'| |exact Ez]. rewrite (c_ter (proj1 Hk)). exact T.
Qed.
End Run.
