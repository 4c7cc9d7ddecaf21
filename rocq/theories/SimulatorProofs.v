(** Lemmas about one step of the simulator. *)
From Coq Require Import QArith Qcanon ZArith List Bool Arith Lia Sorted.
From Verif Require Import Base Num SeqModel SeqSpec SeqProofs SeqProofs2 DictLemmas SimulatorModel SimulatorSpec.
Import ListNotations.
Open Scope Qc_scope.

Definition snoc {X} (b : builder X) (t : Qc) (v : X) : builder X := mkB (b_ts b ++ [t]) (b_vs b ++ [v]).

Lemma b_add_ok {X} (b : builder X) t v b' : b_add b t v = Ok b' -> b' = snoc b t v.
Proof.
  unfold b_add, snoc. destruct (rev (b_ts b)); [congruence|]. destruct (qleb t q); congruence.
Qed.

Lemma samples_snoc {X} (b : builder X) t v : length (b_ts b) = length (b_vs b) ->
  samples (snoc b t v) = samples b ++ [(t, v)].
Proof.
  unfold samples, snoc; cbn. intro H. rewrite <- (app_nil_r (combine (b_ts b) (b_vs b))).
  generalize dependent (b_vs b). induction (b_ts b) as [|x r IH]; intros [|y l] H; cbn in *; try discriminate; [reflexivity|].
  f_equal. rewrite IH by congruence. rewrite app_nil_r. reflexivity.
Qed.

Lemma dmem_spec {V} (d : list (player * V)) p : dmem d p = true <-> In p (akeys d).
Proof. unfold dmem. rewrite <- dget_In_keys. destruct (dget d p); split; congruence. Qed.
Lemma dmem_false {V} (d : list (player * V)) p : dmem d p = false <-> ~ In p (akeys d).
Proof. unfold dmem. rewrite <- dget_None. destruct (dget d p); split; congruence. Qed.

Section Step.
Context {W : world}.
Implicit Types (s : st W) (p q : player).

(** ** Events *)
Lemma asks_of_cons p e (l : list (event W)) : asks_of p (e :: l) = asks_of p l ++ asks_of p [e].
Proof. unfold asks_of. cbn [rev]. rewrite flat_map_app. reflexivity. Qed.
Lemma moves_of_cons p e (l : list (event W)) : moves_of p (e :: l) = moves_of p l ++ moves_of p [e].
Proof. unfold moves_of. cbn [rev]. rewrite flat_map_app. reflexivity. Qed.

(** ** Per-player view and frame *)
Definition view s p :=
  (model_of s p, logger_of s p, dget (s_cmds (sm s)) p, asks_of p (ev s), moves_of p (ev s),
   dget (c_players (cx s)) p, dget (c_sensors (cx s)) p).

Record frame s s' : Prop := mkFrame {
  f_cfg : c_cfg (cx s') = c_cfg (cx s);
  f_time : c_time (cx s') = c_time (cx s);
  f_term : c_term (cx s') = c_term (cx s);
  f_reports : c_reports (cx s') = c_reports (cx s);
  f_first : c_first (cx s') = c_first (cx s);
  f_log : c_log (cx s') = c_log (cx s);
  f_obs : s_obs (sm s') = s_obs (sm s);
  f_last : s_last (sm s') = s_last (sm s);
  f_players : akeys (c_players (cx s')) = akeys (c_players (cx s));
  f_models : akeys (c_models (cx s')) = akeys (c_models (cx s));
  f_sensors : forall q, In q (akeys (c_sensors (cx s))) -> In q (akeys (c_sensors (cx s')));
  f_logkeys : forall q, In q (akeys (s_logs (sm s))) -> In q (akeys (s_logs (sm s')))
}.

Lemma frame_refl s : frame s s.
Proof. constructor; auto. Qed.
Lemma frame_trans s1 s2 s3 : frame s1 s2 -> frame s2 s3 -> frame s1 s3.
Proof. intros [] []. constructor; try congruence; auto. Qed.

Lemma need_frame s s' : frame s s' -> need_commands s' = need_commands s.
Proof.
  intros []. unfold need_commands, param, time. rewrite f_last0, f_cfg0, f_time0. reflexivity.
Qed.

Lemma with_logger_ok s p f s' : with_logger s p f = Ok s' ->
  exists l l', logger_of s p = Some l /\ f l = Ok l' /\
    s' = upd_sm s (set_logs (sm s) (dset (s_logs (sm s)) p l')).
Proof.
  unfold with_logger, logger_of. destruct (dgetE (s_logs (sm s)) p) as [l|e] eqn:E; [|discriminate].
  apply agetE_Ok in E. destruct (f l) as [l'|e] eqn:E2; [|discriminate]. intros [= <-]. eauto.
Qed.

Lemma log_state_ok t x (l l' : plogger W) : log_state t x l = Ok l' ->
  l' = mkLogger (snoc (lg_states l) t x) (lg_commands l) (lg_extra l) (lg_info l).
Proof. unfold log_state. destruct (b_add _ _ _) eqn:E; [|discriminate]. apply b_add_ok in E. intros [= <-]. subst; reflexivity. Qed.
Lemma log_command_ok t x (l l' : plogger W) : log_command t x l = Ok l' ->
  l' = mkLogger (lg_states l) (snoc (lg_commands l) t x) (lg_extra l) (lg_info l).
Proof. unfold log_command. destruct (b_add _ _ _) eqn:E; [|discriminate]. apply b_add_ok in E. intros [= <-]. subst; reflexivity. Qed.
Lemma log_extra_ok t x (l l' : plogger W) : log_extra t x l = Ok l' ->
  l' = mkLogger (lg_states l) (lg_commands l) (snoc (lg_extra l) t x) (lg_info l).
Proof. unfold log_extra. destruct (b_add _ _ _) eqn:E; [|discriminate]. apply b_add_ok in E. intros [= <-]. subst; reflexivity. Qed.
Lemma log_info_ok t x (l l' : plogger W) : log_info t x l = Ok l' ->
  l' = mkLogger (lg_states l) (lg_commands l) (lg_extra l) (snoc (lg_info l) t x).
Proof. unfold log_info. destruct (b_add _ _ _) eqn:E; [|discriminate]. apply b_add_ok in E. intros [= <-]. subst; reflexivity. Qed.

Definition opt_snoc {X} (b : builder X) (t : Qc) (x : option X) : builder X :=
  match x with None => b | Some v => snoc b t v end.

Ltac inv_match H :=
  match type of H with
  | context [match ?x with _ => _ end] => destruct x eqn:?; try discriminate H
  end.

Lemma ask_ok s p t s' : ask s p t = Ok s' ->
  exists f f' o a a' a'' u x l,
    get_sensor (cx s) p = Ok f /\ sense W f (g_scen (c_cfg (cx s))) (s_obs (sm s)) p = Ok (f', o) /\
    dget (c_players (cx s)) p = Some a /\ agent_cmds W a o = Ok (a', u) /\ agent_extra W a' = Ok (a'', x) /\
    logger_of s p = Some l /\
    frame s s' /\ c_models (cx s') = c_models (cx s) /\
    dget (s_cmds (sm s')) p = Some u /\
    dget (c_players (cx s')) p = Some a'' /\
    logger_of s' p = Some (mkLogger (lg_states l) (snoc (lg_commands l) t u)
                             (opt_snoc (lg_extra l) t x) (snoc (lg_info l) t (cpu_time W p t))) /\
    ev s' = EAsk p t (s_obs (sm s)) o u :: ev s /\
    (forall q, q <> p -> view s' q = view s q).
Proof.
  unfold ask. intro H.
  destruct (get_sensor (cx s) p) as [f|] eqn:E1; [|discriminate].
  destruct (sense W f _ _ p) as [[f' o]|] eqn:E2; [|discriminate].
  destruct (dgetE (c_players (cx s)) p) as [a|] eqn:E3; [|discriminate]. apply agetE_Ok in E3.
  destruct (agent_cmds W a o) as [[a' u]|] eqn:E4; [|discriminate]. cbv zeta in H.
  match type of H with context [with_logger ?x p (log_command t u)] => set (s1 := x) in H end.
  destruct (with_logger s1 p (log_command t u)) as [s2|] eqn:E5; [|discriminate].
  apply with_logger_ok in E5 as (l & l1 & L1 & L2 & ->). apply log_command_ok in L2. subst l1.
  match type of H with context [with_logger ?x p (log_info t ?y)] => set (s2 := x) in H end.
  destruct (with_logger s2 p (log_info t (cpu_time W p t))) as [s3|] eqn:E6; [|discriminate].
  apply with_logger_ok in E6 as (l2 & l3 & L3 & L4 & ->). apply log_info_ok in L4. subst l3.
  destruct (agent_extra W a') as [[a'' x]|] eqn:E7; [|discriminate].
  assert (L5 : l2 = mkLogger (lg_states l) (snoc (lg_commands l) t u) (lg_extra l) (lg_info l)).
  { unfold logger_of, s2 in L3. cbn in L3. rewrite dget_dset_same in L3. congruence. }
  subst l2. cbn [lg_states lg_commands lg_extra lg_info] in H.
  assert (Lk : logger_of s p = Some l) by exact L1.
  assert (Kl : In p (akeys (s_logs (sm s)))) by (eapply dget_Some_In; exact L1).
  assert (Kp : In p (akeys (c_players (cx s)))) by (eapply dget_Some_In; exact E3).
  exists f, f', o, a, a', a'', u, x, l.
  do 6 (split; [first [reflexivity|assumption]|]).
  assert (VE : forall q, q <> p -> asks_of q (EAsk p t (s_obs (sm s)) o u :: ev s) = asks_of q (ev s) /\
                    moves_of q (EAsk p t (s_obs (sm s)) o u :: ev s) = moves_of q (ev s)).
  { intros q Nq. rewrite asks_of_cons, moves_of_cons. unfold asks_of at 2, moves_of at 2. cbn.
    destruct (Nat.eqb_spec p q); [congruence|]. rewrite !app_nil_r; auto. }
  destruct x as [v|].
  - apply with_logger_ok in H as (l4 & l5 & L6 & L7 & ->). apply log_extra_ok in L7. subst l5.
    unfold logger_of in L6. cbn in L6. rewrite dget_dset_same in L6. injection L6 as <-.
    split; [constructor; cbn; auto|].
    + rewrite !keys_dset; rewrite ?keys_dset; try assumption; reflexivity.
    + intros q Hq. apply In_keys_dset; auto.
    + intros q Hq. apply In_keys_dset; right. apply In_keys_dset; right. apply In_keys_dset; auto.
    + split; [reflexivity|]. split; [cbn; apply dget_dset_same|]. split; [cbn; apply dget_dset_same|].
      split; [unfold logger_of; cbn; apply dget_dset_same|]. split; [reflexivity|].
      intros q Nq. destruct (VE q Nq) as [V1 V2].
      unfold view, model_of, logger_of; cbn [cx sm ev upd_sm upd_cx set_logs set_players set_sensors c_models c_players c_sensors s_logs s_cmds].
      unfold s2, s1; cbn. rewrite !dget_dset_other by congruence. rewrite V1, V2. reflexivity.
  - injection H as <-.
    split; [constructor; cbn; auto|].
    + rewrite !keys_dset; rewrite ?keys_dset; try assumption; reflexivity.
    + intros q Hq. apply In_keys_dset; auto.
    + intros q Hq. apply In_keys_dset; right. apply In_keys_dset; auto.
    + split; [reflexivity|]. split; [cbn; apply dget_dset_same|]. split; [cbn; apply dget_dset_same|].
      split; [unfold logger_of; cbn; apply dget_dset_same|]. split; [reflexivity|].
      intros q Nq. destruct (VE q Nq) as [V1 V2].
      unfold view, model_of, logger_of; cbn [cx sm ev upd_sm upd_cx set_logs set_players set_sensors c_models c_players c_sensors s_logs s_cmds].
      unfold s2, s1; cbn. rewrite !dget_dset_other by congruence. rewrite V1, V2. reflexivity.
Qed.

(** What one iteration of [update] does to its player. *)
Inductive pdone (t : Qc) s p s' : Prop :=
| pdone_intro m m' u l l' :
    model_of s p = Some m -> model_step W m u (dt (param s)) = Ok m' -> model_of s' p = Some m' ->
    logger_of s p = Some l -> logger_of s' p = Some l' ->
    lg_states l' = snoc (lg_states l) t (get_state W m) ->
    dget (s_cmds (sm s')) p = Some u ->
    moves_of p (ev s') = moves_of p (ev s) ++ [(t, u, m, m')] ->
    (if need_commands s then
       exists f f' o a a' a'' x,
         sense W f (g_scen (c_cfg (cx s))) (s_obs (sm s)) p = Ok (f', o) /\
         get_sensor (cx s) p = Ok f /\
         dget (c_players (cx s)) p = Some a /\ agent_cmds W a o = Ok (a', u) /\ agent_extra W a' = Ok (a'', x) /\
         dget (c_players (cx s')) p = Some a'' /\
         lg_commands l' = snoc (lg_commands l) t u /\ lg_info l' = snoc (lg_info l) t (cpu_time W p t) /\
         lg_extra l' = opt_snoc (lg_extra l) t x /\
         asks_of p (ev s') = asks_of p (ev s) ++ [(t, s_obs (sm s), o, u)]
     else dget (s_cmds (sm s)) p = Some u /\ dget (c_players (cx s')) p = dget (c_players (cx s)) p /\
          lg_commands l' = lg_commands l /\ lg_info l' = lg_info l /\ lg_extra l' = lg_extra l /\
          asks_of p (ev s') = asks_of p (ev s)) ->
    pdone t s p s'.

Lemma update_player_ok t s p s' : update_player t s p = Ok s' ->
  frame s s' /\ pdone t s p s' /\ (forall q, q <> p -> view s' q = view s q).
Proof.
  unfold update_player. intro H.
  destruct (dgetE (c_models (cx s)) p) as [m|] eqn:E1; [|discriminate]. apply agetE_Ok in E1.
  destruct (with_logger s p _) as [s1|] eqn:E2; [|discriminate].
  apply with_logger_ok in E2 as (l & l1 & L1 & L2 & ->). apply log_state_ok in L2. subst l1.
  match type of H with context [need_commands ?x] => set (s1 := x) in H end.
  assert (Kl : In p (akeys (s_logs (sm s)))) by (eapply dget_Some_In; exact L1).
  assert (F1 : frame s s1).
  { unfold s1. constructor; cbn; auto. intros q Hq. apply In_keys_dset; auto. }
  assert (V1 : forall q, q <> p -> view s1 q = view s q).
  { intros q Nq. unfold view, model_of, logger_of, s1; cbn. rewrite dget_dset_other by congruence. reflexivity. }
  assert (Lg1 : logger_of s1 p = Some (mkLogger (snoc (lg_states l) t (get_state W m)) (lg_commands l) (lg_extra l) (lg_info l))).
  { unfold logger_of, s1; cbn. apply dget_dset_same. }
  assert (N1 : need_commands s1 = need_commands s) by (apply need_frame; exact F1).
  rewrite N1 in H.
  destruct (if need_commands s then ask s1 p t else Ok s1) as [s2|] eqn:E3; [|discriminate].
  destruct (dgetE (s_cmds (sm s2)) p) as [u|] eqn:E4; [|discriminate]. apply agetE_Ok in E4.
  destruct (dgetE (c_models (cx s2)) p) as [m2|] eqn:E5; [|discriminate]. apply agetE_Ok in E5.
  destruct (model_step W m2 u (dt (param s2))) as [m'|] eqn:E6; [|discriminate]. injection H as <-.
  assert (Km : In p (akeys (c_models (cx s)))) by (eapply dget_Some_In; exact E1).
  assert (G : frame s1 s2 /\ c_models (cx s2) = c_models (cx s1) /\
              (forall q, q <> p -> view s2 q = view s1 q)).
  { destruct (need_commands s).
    - apply ask_ok in E3 as (f&f'&o&a&a'&a''&u'&x&l2&A1&A2&A3&A4&A5&A6&A7&A8&A9&A10&A11&A12&A13). auto.
    - injection E3 as <-. split; [apply frame_refl|auto]. }
  destruct G as (F2 & M2 & V2).
  assert (Em : m2 = m). { rewrite M2 in E5. unfold s1 in E5; cbn in E5. congruence. } subst m2.
  assert (F3 : frame s s2) by (eapply frame_trans; eassumption).
  assert (Pm : dt (param s2) = dt (param s)). { unfold param. rewrite (f_cfg _ _ F3). reflexivity. }
  split; [|split].
  - destruct F3. constructor; cbn; auto. rewrite keys_dset; [assumption|]. rewrite f_models0; exact Km.
  - rewrite Pm in E6.
    destruct (need_commands s) eqn:Nd.
    + apply ask_ok in E3 as (f&f'&o&a&a'&a''&u'&x&l2&A1&A2&A3&A4&A5&A6&A7&A8&A9&A10&A11&A12&A13).
      assert (El : l2 = mkLogger (snoc (lg_states l) t (get_state W m)) (lg_commands l) (lg_extra l) (lg_info l)) by congruence.
      subst l2. cbn in A11. assert (u' = u) by congruence. subst u'.
      eapply pdone_intro with (m := m) (m' := m') (u := u) (l := l); cbn.
      * exact E1.
      * exact E6.
      * unfold model_of; cbn. apply dget_dset_same.
      * exact L1.
      * exact A11.
      * reflexivity.
      * exact E4.
      * rewrite moves_of_cons, A12, moves_of_cons. unfold moves_of at 2 3; cbn. rewrite Nat.eqb_refl, app_nil_r. reflexivity.
      * rewrite Nd. exists f, f', o, a, a', a'', x. repeat (split; [first [assumption|reflexivity]|]).
        rewrite asks_of_cons, A12, asks_of_cons. unfold asks_of at 2 3; cbn. rewrite Nat.eqb_refl, app_nil_r. reflexivity.
    + injection E3 as <-.
      eapply pdone_intro with (m := m) (m' := m') (u := u) (l := l); cbn.
      * exact E1.
      * exact E6.
      * unfold model_of; cbn. apply dget_dset_same.
      * exact L1.
      * exact Lg1.
      * reflexivity.
      * exact E4.
      * rewrite moves_of_cons. unfold moves_of at 2; cbn. rewrite Nat.eqb_refl. reflexivity.
      * rewrite Nd. repeat (split; [first [assumption|reflexivity]|]).
        rewrite asks_of_cons. unfold asks_of at 2; cbn. rewrite app_nil_r. reflexivity.
  - intros q Nq. rewrite <- (V1 q Nq), <- (V2 q Nq). unfold view, model_of, logger_of; cbn.
    rewrite dget_dset_other by congruence. rewrite asks_of_cons, moves_of_cons. unfold asks_of at 2, moves_of at 2; cbn.
    destruct (Nat.eqb_spec p q); [congruence|]. rewrite !app_nil_r. reflexivity.
Qed.
End Step.
