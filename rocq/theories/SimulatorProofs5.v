(** Invariants of the simulator loop and absence of internal errors. *)
From Coq Require Import QArith Qcanon ZArith List Bool Arith Lia Sorted.
From Verif Require Import Base Num SeqModel SeqSpec SeqProofs SeqProofs2 DictLemmas SimulatorModel SimulatorSpec
  SimulatorProofs SimulatorProofs2 SimulatorProofs3 SimulatorProofs4.
Import ListNotations.
Open Scope Qc_scope.

Definition bwf {X} (b : builder X) : Prop := length (b_ts b) = length (b_vs b) /\ Inc (b_ts b).
Definition below {X} (b : builder X) (t : Qc) : Prop := forall a, In a (b_ts b) -> a < t.

Lemma b_add_fits {X} (b : builder X) t v : below b t -> b_add b t v = Ok (snoc b t v).
Proof.
  intro H. unfold b_add, snoc. destruct (rev (b_ts b)) as [|a r] eqn:E; [reflexivity|].
  assert (Ha : a < t). { apply H. apply in_rev. rewrite E. left; reflexivity. }
  replace (qleb t a) with false; [reflexivity|]. symmetry. apply qleb_gt. exact Ha.
Qed.
Lemma snoc_bwf {X} (b : builder X) t v : bwf b -> below b t -> bwf (snoc b t v).
Proof.
  intros [H1 H2] H. split; unfold snoc; cbn.
  - rewrite !app_length, H1. reflexivity.
  - apply Inc_app; [exact H2| |].
    + constructor; [constructor|constructor].
    + intros a c Ha [<-|[]]. apply H; exact Ha.
Qed.
Lemma snoc_below {X} (b : builder X) t v t' : below b t -> t < t' -> below (snoc b t v) t'.
Proof.
  intros H L a Ha. unfold snoc in Ha; cbn in Ha. apply in_app_iff in Ha as [Ha|[<-|[]]]; [|exact L].
  apply H in Ha. qlra.
Qed.
Lemma below_le {X} (b : builder X) t t' : below b t -> t <= t' -> below b t'.
Proof. intros H L a Ha. apply H in Ha. qlra. Qed.
Lemma opt_snoc_bwf {X} (b : builder X) t v : bwf b -> below b t -> bwf (opt_snoc b t v).
Proof. destruct v; cbn; [apply snoc_bwf|auto]. Qed.
Lemma opt_snoc_below {X} (b : builder X) t v t' : below b t -> t < t' -> below (opt_snoc b t v) t'.
Proof. destruct v; cbn; [apply snoc_below|]. intros. eapply below_le; [eassumption|]. qlra. Qed.

Section Inv.
Context {W : world}.
Implicit Types (s : st W) (p q : player) (c : ctx W).

Definition lg_wf (l : plogger W) : Prop := bwf (lg_states l) /\ bwf (lg_commands l) /\ bwf (lg_extra l) /\ bwf (lg_info l).
Definition lg_below (l : plogger W) t : Prop :=
  below (lg_states l) t /\ below (lg_commands l) t /\ below (lg_extra l) t /\ below (lg_info l) t.

Record Inv s : Prop := mkInv {
  i_nd : NoDup (akeys (c_players (cx s)));
  i_ndm : NoDup (akeys (g_missions (c_cfg (cx s))));
  i_am : forall p, active s p -> In p (akeys (c_models (cx s)));
  i_lg : forall p, In p (akeys (c_models (cx s))) -> exists l, logger_of s p = Some l /\ lg_wf l;
  i_below : forall p l, active s p -> logger_of s p = Some l -> lg_below l (time s);
  i_cmds : s_last (sm s) <> None -> forall p, active s p -> exists u, dget (s_cmds (sm s)) p = Some u
}.

(** Initialisation. *)
Lemma init_player_ok s p s' : init_player s p = Ok s' ->
  exists a a', dget (c_players (cx s)) p = Some a /\
  (exists m, model_of s p = Some m /\ agent_init W a p (g_seed (c_cfg (cx s))) (g_scen (c_cfg (cx s))) (dget (g_missions (c_cfg (cx s))) p) m = Ok a') /\
  s' = mkSt (set_players (cx s) (dset (c_players (cx s)) p a'))
           (set_logs (sm s) (dset (s_logs (sm s)) p new_logger)) (ev s).
Proof.
  unfold init_player. intro H.
  destruct (dgetE (c_players (cx s)) p) as [a|] eqn:E1; [|discriminate]. apply agetE_Ok in E1.
  destruct (dgetE (c_models (cx s)) p) as [m|] eqn:E2; [|discriminate]. apply agetE_Ok in E2.
  destruct (agent_init _ _ _ _ _ _ _) as [a'|] eqn:E3; [|discriminate]. injection H as <-.
  exists a, a'. split; [exact E1|]. split; [|reflexivity]. exists m. auto.
Qed.

Lemma init_run_ok c m s0 : init_run c m = Ok s0 ->
  c_cfg (cx s0) = c_cfg c /\ c_models (cx s0) = c_models c /\ akeys (c_players (cx s0)) = akeys (c_players c) /\
  c_sensors (cx s0) = c_sensors c /\ c_log (cx s0) = c_log c /\ c_time (cx s0) = c_time c /\ c_term (cx s0) = c_term c /\
  c_reports (cx s0) = c_reports c /\ c_first (cx s0) = c_first c /\ ev s0 = [] /\
  s_last (sm s0) = s_last m /\ s_cmds (sm s0) = s_cmds m /\ s_obs (sm s0) = s_obs m /\
  (forall p, In p (akeys (c_players c)) -> logger_of s0 p = Some new_logger) /\
  (forall p, ~ In p (akeys (c_players c)) -> logger_of s0 p = dget (s_logs m) p).
Proof.
  unfold init_run. intro H.
  pose (Q := fun (pre : list nat) (x : st W) =>
    c_cfg (cx x) = c_cfg c /\ c_models (cx x) = c_models c /\ akeys (c_players (cx x)) = akeys (c_players c) /\
    c_sensors (cx x) = c_sensors c /\ c_log (cx x) = c_log c /\ c_time (cx x) = c_time c /\ c_term (cx x) = c_term c /\
    c_reports (cx x) = c_reports c /\ c_first (cx x) = c_first c /\ ev x = [] /\
    s_last (sm x) = s_last m /\ s_cmds (sm x) = s_cmds m /\ s_obs (sm x) = s_obs m /\
    (forall p, In p pre -> logger_of x p = Some new_logger) /\
    (forall p, ~ In p pre -> logger_of x p = dget (s_logs m) p)).
  change (Q ([] ++ akeys (c_players c)) s0).
  eapply rfold_inv; [| |exact H].
  - unfold Q. repeat (split; [reflexivity|]). split; [intros p []|reflexivity].
  - intros pre p s s' (Q1&Q2&Q3&Q4&Q5&Q6&Q7&Q8&Q9&Q10&Q11&Q12&Q13&Q14&Q15) Hin Hs.
    apply init_player_ok in Hs as (a & a' & A1 & _ & ->). unfold Q; cbn.
    repeat (split; [assumption|]). split.
    { rewrite keys_dset; [exact Q3|]. eapply dget_Some_In; exact A1. }
    repeat (split; [assumption|]). split.
    + intros q Hq. unfold logger_of; cbn. rewrite dget_dset. destruct (Nat.eqb_spec p q); [reflexivity|].
      apply Q14. apply in_app_iff in Hq as [Hq|[<-|[]]]; [exact Hq|contradiction].
    + intros q Hq. unfold logger_of; cbn. rewrite in_app_iff in Hq. cbn in Hq. rewrite dget_dset_other by (intros ->; tauto).
      apply Q15. tauto.
Qed.

Lemma same_keys_spec {V V'} (a : list (player * V)) (b : list (player * V')) :
  same_keys a b = true <-> (forall p, In p (akeys a) <-> In p (akeys b)).
Proof.
  unfold same_keys. rewrite andb_true_iff, !forallb_forall. split.
  - intros [H1 H2] p. split; intro H; apply dmem_spec; auto.
  - intro H. split; intros p Hp; apply dmem_spec, H; exact Hp.
Qed.

Lemma valid_ctx_keys c : valid_ctx c ->
  (forall p, In p (akeys (c_models c)) <-> In p (akeys (c_players c))) /\
  (forall p, In p (akeys (g_missions (c_cfg c))) -> In p (akeys (c_models c))).
Proof.
  intros (H & _). unfold ctx_post_init in H.
  destruct (same_keys _ _) eqn:E; [|discriminate]. cbn in H. rewrite same_keys_spec in E.
  destruct (forallb _ _) eqn:E2; [|discriminate]. rewrite forallb_forall in E2.
  split; [exact E|]. intros p Hp. apply dmem_spec, E2; exact Hp.
Qed.

Lemma started_inv c s0 : started c s0 -> Inv s0.
Proof.
  intros (V & m & Um & H). destruct (valid_ctx_keys _ V) as [K1 K2]. destruct V as (_ & V1 & V2 & V3).
  apply init_run_ok in H as (Q1&Q2&Q3&Q4&Q5&Q6&Q7&Q8&Q9&Q10&Q11&Q12&Q13&Q14&Q15).
  constructor.
  - rewrite Q3; exact V2.
  - rewrite Q1; exact V3.
  - intros p Hp. rewrite Q2. apply K1. unfold active in Hp. rewrite <- Q3. exact Hp.
  - intros p Hp. rewrite Q2 in Hp. apply K1 in Hp. exists new_logger. split; [apply Q14; exact Hp|].
    repeat split; constructor.
  - intros p l Hp Hl. unfold active in Hp. rewrite Q3 in Hp. rewrite Q14 in Hl by exact Hp. injection Hl as <-.
    repeat split; intros a [].
  - intros C. rewrite Q11, Um in C. congruence.
Qed.

Lemma param_eq s s' : srel s s' -> param s' = param s.
Proof. intro R. unfold param. rewrite (sr_cfg _ _ R). reflexivity. Qed.

Lemma srel_inactive s s' p : srel s s' -> ~ active s p -> ~ active s' p.
Proof. intros R H. apply (sr_inact _ _ R p H). Qed.
Lemma srel_active s s' p : srel s s' -> active s' p -> active s p.
Proof.
  intros R H. destruct (in_dec Nat.eq_dec p (akeys (c_players (cx s)))) as [Hp|Hp]; [exact Hp|].
  exfalso. apply (srel_inactive _ _ _ R Hp). exact H.
Qed.

Lemma Inv_step s s' : 0 < dt (param s) -> Inv s -> srel s s' -> Inv s'.
Proof.
  intros D I R. destruct I as [I1 I2 I3 I4 I5 I6].
  assert (T : time s < time s') by (rewrite (sr_time _ _ R); qlra).
  constructor.
  - apply (sr_nodup _ _ R).
  - rewrite (sr_cfg _ _ R). exact I2.
  - intros p Hp. rewrite (sr_models _ _ R). apply I3. eapply srel_active; eassumption.
  - intros p Hp. rewrite (sr_models _ _ R) in Hp. destruct (I4 p Hp) as (l & L1 & L2).
    destruct (in_dec Nat.eq_dec p (akeys (c_players (cx s)))) as [Ha|Ha].
    + destruct (sr_act _ _ R p Ha) as [m m1 m2 u l0 l' fin P1 P2 P3 P4 P5 P6 P7 P8 P9 P10 P11 P12 P13 P14].
      assert (l0 = l) by congruence. subst l0. exists l'. split; [exact P6|].
      specialize (I5 p l Ha L1). destruct I5 as (B1 & B2 & B3 & B4). destruct L2 as (W1 & W2 & W3 & W4).
      assert (S1 : bwf (lg_states l')).
      { rewrite P7. cbn zeta. destruct fin; [apply snoc_bwf; [|apply snoc_below; assumption]|]; apply snoc_bwf; assumption. }
      destruct (need_commands s).
      * destruct P14 as (f & f' & o & a & a' & a'' & x & full & Q1 & Q2 & Q3 & Q4 & Q5 & Q6 & Q7 & Q8 & Q9 & Q10).
        split; [exact S1|]. rewrite Q7, Q8, Q9. split; [apply snoc_bwf; assumption|]. split; [apply opt_snoc_bwf; assumption|apply snoc_bwf; assumption].
      * destruct P14 as (Q1 & Q2 & Q3 & Q4 & Q5). split; [exact S1|]. rewrite Q2, Q3, Q4. auto.
    + destruct (sr_inact _ _ R p Ha) as (_ & _ & L & _). exists l. split; [congruence|exact L2].
  - intros p l' Ha' Hl. assert (Ha : active s p) by (eapply srel_active; eassumption).
    destruct (sr_act _ _ R p Ha) as [m m1 m2 u l l'' fin P1 P2 P3 P4 P5 P6 P7 P8 P9 P10 P11 P12 P13 P14].
    assert (l'' = l') by congruence. subst l''.
    destruct fin; [exfalso; apply P8; [reflexivity|exact Ha']|].
    specialize (I5 p l Ha P5). destruct I5 as (B1 & B2 & B3 & B4).
    assert (S1 : below (lg_states l') (time s')) by (rewrite P7; apply snoc_below; assumption).
    destruct (need_commands s).
    + destruct P14 as (f & f' & o & a & a' & a'' & x & full & Q1 & Q2 & Q3 & Q4 & Q5 & Q6 & Q7 & Q8 & Q9 & Q10).
      split; [exact S1|]. rewrite Q7, Q8, Q9. split; [apply snoc_below; assumption|]. split; [apply opt_snoc_below; assumption|apply snoc_below; assumption].
    + destruct P14 as (Q1 & Q2 & Q3 & Q4 & Q5). split; [exact S1|]. rewrite Q2, Q3, Q4.
      assert (time s <= time s') by qlra. repeat split; eapply below_le; eassumption.
  - intros _ p Ha'. assert (Ha : active s p) by (eapply srel_active; eassumption).
    destruct (sr_act _ _ R p Ha) as [m m1 m2 u l l'' fin P1 P2 P3 P4 P5 P6 P7 P8 P9 P10 P11 P12 P13 P14]. eauto.
Qed.

(** Facts along an execution. *)
Lemma after_facts s0 k s : Inv s0 -> 0 < dt (param s0) -> after s0 k s ->
  Inv s /\ c_cfg (cx s) = c_cfg (cx s0) /\ param s = param s0 /\
  akeys (c_models (cx s)) = akeys (c_models (cx s0)) /\ time s = time s0 + qn k * dt (param s0) /\
  c_log (cx s) = c_log (cx s0) /\
  (forall q, In q (akeys (c_sensors (cx s0))) -> In q (akeys (c_sensors (cx s)))).
Proof.
  intros I D A. induction A as [|k s s' A IH Ht Hs].
  - split; [exact I|]. repeat (split; [reflexivity|]). split; [|split; [reflexivity|auto]]. rewrite qn_0. ring.
  - destruct IH as (I1 & I2 & I3 & I4 & I5 & I6 & I7).
    pose proof (step_ok _ _ (i_nd _ I1) (i_ndm _ I1) Hs) as R.
    split; [eapply Inv_step; [|exact I1|exact R]; rewrite I3; exact D|].
    split; [rewrite (sr_cfg _ _ R); exact I2|]. split; [rewrite (param_eq _ _ R); exact I3|].
    split; [rewrite (sr_models _ _ R); exact I4|]. split.
    { rewrite (sr_time _ _ R), I5, I3, qn_S. ring. }
    split; [rewrite (sr_log _ _ R); exact I6|]. intros q Hq. apply (sr_sensors _ _ R). auto.
Qed.
End Inv.
