(** The log of a run can be animated. *)
From Coq Require Import QArith Qcanon ZArith List Bool Arith Lia Sorted.
From Verif Require Import Base Num SeqModel SeqSpec SeqProofs SeqProofs2 DictLemmas SimulatorModel SimulatorSpec
  SimulatorProofs SimulatorProofs2 SimulatorProofs3 SimulatorProofs4 SimulatorProofs5 SimulatorProofs6 SimulatorProofs7 SimulatorMain AnimModel AnimSpec.
Import ListNotations.
Open Scope Qc_scope.

Lemma dget_NoDup_In : forall V (l : list (nat * V)) k x, NoDup (akeys l) -> In (k, x) l -> dget l k = Some x.
Proof.
  induction l as [|[k' x'] r IH]; intros k x N H; [destruct H|]. rewrite dget_cons. inversion N as [|? ? N1 N2]; subst. destruct H as [[= -> ->]|H]; [rewrite Nat.eqb_refl; reflexivity|].
  destruct (Nat.eqb_spec k' k) as [->|K]; [|apply IH; assumption]. destruct N1. apply (in_map fst) in H. exact H.
Qed.
Lemma dget_In : forall V (l : list (nat * V)) k x, dget l k = Some x -> In (k, x) l.
Proof.
  induction l as [|[k' x'] r IH]; intros k x H; [discriminate|]. rewrite dget_cons in H. destruct (Nat.eqb_spec k' k) as [->|K]; [injection H as ->; left; reflexivity|right; auto].
Qed.
Lemma In_dset : forall V (l : list (nat * V)) k v k' x, In (k', x) (dset l k v) -> (k' = k /\ x = v) \/ In (k', x) l.
Proof.
  induction l as [|[a b] r IH]; intros k v k' x H; cbn in H.
  - unfold aset in H. destruct H as [[= <- <-]|[]]. auto.
  - change (In (k', x) (if Nat.eqb a k then (a, v) :: r else (a, b) :: dset r k v)) in H. destruct (Nat.eqb_spec a k) as [->|K].
    + destruct H as [[= <- <-]|H]; [auto|right; right; exact H].
    + destruct H as [[= <- <-]|H]; [right; left; reflexivity|]. destruct (IH _ _ _ _ H) as [?|?]; [auto|right; right; assumption].
Qed.

Section Run.
Context {W : world}.
Implicit Types (s : st W) (p q : player) (c : ctx W).

(** The log of the computation times has one entry per request, at its time. *)
Lemma info_log_is_requests c s0 : started c s0 -> 0 < dt (g_param (c_cfg c)) -> forall k s, after s0 k s ->
  forall p, In p (akeys (c_models c)) -> info_log s p = map (fun a => (ask_t a, cpu_time W p (ask_t a))) (asks s p).
Proof.
  intros S D. apply (after_rect c s0 (fun k s => forall p, In p (akeys (c_models c)) -> info_log s p = map (fun a => (ask_t a, cpu_time W p (ask_t a))) (asks s p)) S D).
  - destruct (started_start _ _ S) as (S1 & S2 & S3 & S4 & _). intros p Hp. unfold asks, info_log. rewrite S2, (S4 p Hp). reflexivity.
  - intros k s s' A Ht A' F F' R IH p Hp. specialize (IH p Hp). pose proof (fa_inv _ _ _ _ F) as I. destruct (active_dec s p) as [Ha|Ha].
    + destruct (sr_act _ _ R p Ha) as [m m1 m2 u l l' fin P1 P2 P3 P4 P5 P6 P7 P8 P9 P10 P11 P12 P13 P14].
      destruct (i_lg _ I p (i_am _ I p Ha)) as (l0 & L1 & (_ & _ & _ & Wf)). assert (l0 = l) by congruence. subst l0.
      unfold info_log, asks in *. rewrite P5 in IH. rewrite P6. destruct (need_commands s).
      * destruct P14 as (f & f' & o & a & a' & a'' & x & full & Q1 & Q2 & Q3 & Q4 & Q5 & Q6 & Q7 & Q8 & Q9 & Q10).
        rewrite Q8, Q10, map_app, <- IH. apply samples_snoc. apply Wf.
      * destruct P14 as (Q1 & Q2 & Q3 & Q4 & Q5). rewrite Q3, Q5. exact IH.
    + destruct (sr_inact _ _ R p Ha) as (H1 & H2 & H3 & H4 & H5 & H6). unfold info_log, asks in *. rewrite H3, H5. exact IH.
Qed.

Lemma write_logs_shape s sf : write_logs s = Ok sf -> c_log (cx s) = [] -> NoDup (akeys (c_models (cx s))) ->
  akeys (c_log (cx sf)) = akeys (c_models (cx s)) /\
  forall p pl, In (p, pl) (c_log (cx sf)) -> obtainable (pl_states pl) /\ obtainable (pl_commands pl) /\ obtainable (pl_extra pl) /\ obtainable (pl_info pl).
Proof.
  intros H E N. unfold write_logs in H.
  refine (rfold_inv_nd write_log (fun pre x => akeys (c_log (cx x)) = pre /\
    forall p pl, In (p, pl) (c_log (cx x)) -> obtainable (pl_states pl) /\ obtainable (pl_commands pl) /\ obtainable (pl_extra pl) /\ obtainable (pl_info pl)) _ [] _ _ _ N _ H).
  - rewrite E. split; [reflexivity|intros p pl []].
  - intros pre p x x' [K O] NI _ Hw. unfold write_log in Hw. destruct (dgetE (s_logs (sm x)) p) as [l|]; [|discriminate]. destruct (logger_as_sequence l) as [q|] eqn:L; [|discriminate]. injection Hw as <-.
    cbn [upd_cx cx set_log c_log]. split; [rewrite keys_dset_new by (rewrite K; exact NI); rewrite K; reflexivity|].
    intros p' pl H'. apply In_dset in H' as [[-> ->]|H']; [|eapply O; exact H'].
    unfold logger_as_sequence in L. destruct (as_sequence (lg_states l)) eqn:E1; [|discriminate]. destruct (as_sequence (lg_commands l)) eqn:E2; [|discriminate]. destruct (as_sequence (lg_extra l)) eqn:E3; [|discriminate]. destruct (as_sequence (lg_info l)) eqn:E4; [|discriminate].
    injection L as <-. cbn [pl_states pl_commands pl_extra pl_info]. split; [|split; [|split]]; eapply ob_build; eassumption.
Qed.

(** Every iteration of a run has an active player. *)
Lemma somebody_active c s0 : started c s0 -> 0 < dt (g_param (c_cfg c)) -> c_models c <> [] -> forall k s, after s0 k s -> c_term (cx s) = false -> exists p, In p (akeys (c_models c)) /\ active s p.
Proof.
  intros S D M k s A T. destruct k as [|k].
  - inversion A; subst. destruct (c_models c) as [|[p m] r] eqn:E; [contradiction|]. exists p. split; [left; reflexivity|]. apply (proj1 (started_start _ _ S)). rewrite E. left. reflexivity.
  - destruct (c_players (cx s)) as [|[p ag] r] eqn:Ep.
    + exfalso. inversion A as [|k' sp s'' Ap Htp Hsp]; subst. pose proof (after_step _ _ _ _ _ S D Ap Hsp) as Rp.
      assert (Tm : c_term (cx s) = true) by (apply (sr_term _ _ Rp); apply stop_empty; exact Ep). congruence.
    + assert (Ha : active s p) by (unfold active; rewrite Ep; left; reflexivity). exists p. split; [|exact Ha].
      pose proof (active_back c s0 S D _ _ A 0%nat s0 p ltac:(lia) (after_0 s0) Ha) as H. apply (proj1 (started_start _ _ S)). exact H.
Qed.

(** What the log of a run of at least two iterations, from time 0, looks like. *)
Lemma run_log c m fuel sf : valid_ctx c -> unused m -> 0 < dt (g_param (c_cfg c)) -> c_time c = 0 -> c_log c = [] -> c_models c <> [] ->
  run fuel m c = Some (Ok sf) -> dt (g_param (c_cfg c)) < time sf ->
  akeys (c_log (cx sf)) = akeys (c_models c) /\ made_log (c_log (cx sf)) /\ known_from 0 (c_log (cx sf)) /\ simlog_init_time (c_log (cx sf)) = Ok 0 /\
  exists D, simlog_last_time (c_log (cx sf)) = Ok D /\ time sf - dt (g_param (c_cfg c)) <= D /\ D <= time sf.
Proof.
  intros V U D T0 L0 M H HT.
  unfold run in H. destruct (init_run c m) as [s0|] eqn:E0; [|discriminate].
  assert (S : started c s0) by (split; [exact V|eauto]).
  destruct (loop fuel s0) as [[s|e1]|] eqn:El; [|discriminate|discriminate].
  destruct (loop_after s0 fuel 0 s0 s (after_0 s0) El) as (k & A & T).
  pose proof (started_facts _ _ _ _ S D A) as F. injection H as H.
  destruct (write_logs_ok s) as (sf' & E & E1 & E2 & (lg & E3) & E4).
  { exact (fa_inv _ _ _ _ F). }
  { rewrite (fa_models _ _ _ _ F). apply V. }
  assert (sf' = sf) by congruence. subst sf'.
  assert (Ts : time sf = time s) by (unfold time; rewrite E3; reflexivity).
  pose proof (fa_time _ _ _ _ F) as Tm. rewrite T0 in Tm.
  destruct (write_logs_shape s sf H) as [SK SO]. { rewrite (fa_log _ _ _ _ F). exact L0. } { rewrite (fa_models _ _ _ _ F). apply V. }
  rewrite (fa_models _ _ _ _ F) in SK, E4. assert (ND : NoDup (akeys (c_log (cx sf)))) by (rewrite SK; apply V).
  split; [exact SK|]. split; [split; [exact ND|exact SO]|].
  assert (K2 : (2 <= k)%nat).
  { destruct k as [|[|k]]; [exfalso|exfalso|lia]; rewrite Ts, Tm in HT. - change (qn 0) with 0 in HT. qlra. - change (qn 1) with 1 in HT. qlra. }
  (* one player *)
  assert (P : forall p pl, In (p, pl) (c_log (cx sf)) -> In p (akeys (c_models c)) /\ iter (pl_states pl) = states_log s p /\ iter (pl_commands pl) = commands_log s p /\ iter (pl_info pl) = info_log s p /\
     tss (pl_states pl) = map fst (states_log s p) /\ tss (pl_commands pl) = map fst (commands_log s p) /\ tss (pl_info pl) = map fst (info_log s p)).
  { intros p pl Hin. assert (Hp : In p (akeys (c_models c))) by (rewrite <- SK; apply (in_map fst) in Hin; exact Hin). split; [exact Hp|].
    destruct (E4 p Hp) as (pl' & G1 & (M1 & M2 & M3 & M4 & M5 & M6 & M7 & M8)). rewrite (dget_NoDup_In _ _ _ _ ND Hin) in G1. injection G1 as <-.
    split; [exact M1|]. split; [exact M2|]. split; [exact M4|]. rewrite <- M1, <- M2, <- M4. split; [|split]; symmetry; apply iter_fst; assumption. }
  assert (First : forall p, In p (akeys (c_models c)) -> In 0 (map fst (states_log s p))).
  { intros p Hp. pose proof (proj1 (proj1 (started_start _ _ S) p) ) as X. assert (Ha : active s0 p) by (apply (proj1 (started_start _ _ S)); exact Hp).
    pose proof (states_log_spec c s0 S D k s A p Hp) as SL. pose proof (started_facts _ _ _ _ S D (after_0 s0)) as F0. pose proof (fa_time _ _ _ _ F0) as T00. rewrite T0 in T00.
    pose proof (i_am _ (fa_inv _ _ _ _ F0) p Ha) as Y. apply In_keys_dget in Y as [mm Y].
    apply in_map_iff. exists (0, get_state W mm). split; [reflexivity|]. apply SL. left. exists 0%nat, s0. split; [lia|]. split; [constructor|]. split; [exact Ha|]. split; [rewrite T00; change (qn 0) with 0; ring|].
    unfold state_of, model_of. rewrite Y. reflexivity. }
  assert (Range : forall p u, In p (akeys (c_models c)) -> In u (map fst (states_log s p)) -> 0 <= u /\ u <= time s).
  { intros p u Hp Hu. apply in_map_iff in Hu as ([u' x] & <- & Hu). cbn [fst]. apply (states_log_spec c s0 S D k s A p Hp) in Hu.
    assert (G : forall i si, (i <= k)%nat -> after s0 i si -> 0 <= time si /\ time si <= time s).
    { intros i si Hi Ai. pose proof (fa_time _ _ _ _ (started_facts _ _ _ _ S D Ai)) as Ti. rewrite T0 in Ti. rewrite Ti, Tm.
      assert (Q0 : 0 <= qn i) by (change 0 with (qn 0); apply qn_le; lia). assert (Q1 : qn i <= qn k) by (apply qn_le; exact Hi).
      apply (Qcmult_le_compat_r _ _ (dt (g_param (c_cfg c)))) in Q0; [|apply Qclt_le_weak; exact D]. apply (Qcmult_le_compat_r _ _ (dt (g_param (c_cfg c)))) in Q1; [|apply Qclt_le_weak; exact D].
      rewrite Qcmult_0_l in Q0. split; qlra. }
    destruct Hu as [(i & si & Hi & Ai & _ & -> & _)|(i & si & si' & Hi & Ai & Ai' & _ & _ & -> & _)]; [apply (G i si); [lia|exact Ai]|apply (G (Datatypes.S i) si'); [lia|exact Ai']]. }
  split; [|split].
  - intros p pl Hin. destruct (P p pl Hin) as (Hp & I1 & I2 & I3 & S1 & S2 & S3). rewrite S1, S2, S3.
    split; [intro C; pose proof (First p Hp) as X; rewrite C in X; destruct X|].
    destruct (ai_first _ _ _ _ (ainv_holds _ _ S D _ _ A) p Hp ltac:(lia)) as (a & r & Ea & Ta). rewrite T0 in Ta.
    rewrite (ai_cmds _ _ _ _ (ainv_holds _ _ S D _ _ A) p Hp), (info_log_is_requests c s0 S D k s A p Hp), Ea. cbn [map fst]. rewrite Ta.
    split; exists 0; (split; [left; reflexivity|apply Qcle_refl]).
  - assert (OB : forall p pl, In (p, pl) (c_log (cx sf)) -> obtainable (pl_states pl)) by (intros p pl Hin; apply (SO p pl Hin)).
    destruct (C30_init_time_is_least_pf W (c_log (cx sf)) OB) as [DD LL].
    destruct (proj2 DD) as [t Et]. { split; [intro C; rewrite C in SK; destruct (c_models c); [contradiction|discriminate]|]. intros p pl Hin. destruct (P p pl Hin) as (Hp & I1 & I2 & I3 & S1 & S2 & S3). rewrite S1. intro C. pose proof (First p Hp) as X. rewrite C in X. destruct X. }
    rewrite Et. f_equal. destruct (LL t Et) as [(p & pl & Hin & Hu) Lst]. destruct (P p pl Hin) as (Hp & I1 & I2 & I3 & S1 & S2 & S3).
    pose proof (Lst p pl 0 Hin) as L1. rewrite S1 in L1, Hu. specialize (L1 (First p Hp)). destruct (Range p t Hp Hu) as [R1 _]. apply Qcle_antisym; assumption.
  - assert (OB : forall p pl, In (p, pl) (c_log (cx sf)) -> obtainable (pl_states pl)) by (intros p pl Hin; apply (SO p pl Hin)).
    destruct (C30_last_time_is_greatest_pf W (c_log (cx sf)) OB) as [DD LL].
    destruct (proj2 DD) as [t Et]. { split; [intro C; rewrite C in SK; destruct (c_models c); [contradiction|discriminate]|]. intros p pl Hin. destruct (P p pl Hin) as (Hp & I1 & I2 & I3 & S1 & S2 & S3). rewrite S1. intro C. pose proof (First p Hp) as X. rewrite C in X. destruct X. }
    exists t. split; [exact Et|]. rewrite Ts. destruct (LL t Et) as [(p & pl & Hin & Hu) Grt]. destruct (P p pl Hin) as (Hp & I1 & I2 & I3 & S1 & S2 & S3). rewrite S1 in Hu. destruct (Range p t Hp Hu) as [_ R2]. split; [|exact R2].
    (* the last iteration *)
    destruct k as [|k]; [lia|]. inversion A as [|k' sp s'' Ap Htp Hsp]; subst.
    destruct (somebody_active c s0 S D M k sp Ap Htp) as (q & Hq & Ha). destruct (E4 q Hq) as (ql & G1 & _). apply dget_In in G1. destruct (P q ql G1) as (_ & _ & _ & _ & S1' & _).
    pose proof (started_facts _ _ _ _ S D Ap) as Fp. pose proof (i_am _ (fa_inv _ _ _ _ Fp) q Ha) as Y. apply In_keys_dget in Y as [mm Y].
    assert (In (time sp) (tss (pl_states ql))).
    { rewrite S1'. apply in_map_iff. exists (time sp, get_state W mm). split; [reflexivity|]. apply (states_log_spec c s0 S D _ s A q Hq). left. exists k, sp. split; [lia|]. split; [exact Ap|]. split; [exact Ha|]. split; [reflexivity|]. unfold state_of, model_of. rewrite Y. reflexivity. }
    pose proof (Grt q ql (time sp) G1 H0) as G. pose proof (fa_time _ _ _ _ Fp) as Tp. rewrite T0 in Tp. rewrite Tm, qn_S. rewrite Tp in G. qlra.
Qed.
End Run.
