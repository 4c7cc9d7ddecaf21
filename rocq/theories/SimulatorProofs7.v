(** Facts about whole executions. *)
From Coq Require Import QArith Qcanon ZArith List Bool Arith Lia Sorted.
From Verif Require Import Base Num SeqModel SeqSpec SeqProofs SeqProofs2 DictLemmas SimulatorModel SimulatorSpec
  SimulatorProofs SimulatorProofs2 SimulatorProofs3 SimulatorProofs4 SimulatorProofs5 SimulatorProofs6.
Import ListNotations.
Open Scope Qc_scope.

Section Whole.
Context {W : world}.
Implicit Types (s : st W) (p q : player) (c : ctx W).

Lemma active_dec s p : active s p \/ ~ active s p.
Proof. unfold active. destruct (in_dec Nat.eq_dec p (akeys (c_players (cx s)))); auto. Qed.

Lemma after_step c s0 k s s' : started c s0 -> 0 < dt (g_param (c_cfg c)) -> after s0 k s -> step s = Ok s' -> srel s s'.
Proof.
  intros S D A Hs. assert (Inv s).
  { apply started_inv in S as I. eapply after_facts; [exact I| |exact A].
    destruct S as (_ & m & _ & H). apply init_run_ok in H as (Q1 & _). unfold param. rewrite Q1. exact D. }
  apply step_ok; [apply i_nd|apply i_ndm|]; assumption.
Qed.

Record facts c s0 (k : nat) s : Prop := mkFacts {
  fa_inv : Inv s;
  fa_cfg : c_cfg (cx s) = c_cfg c;
  fa_param : param s = g_param (c_cfg c);
  fa_models : akeys (c_models (cx s)) = akeys (c_models c);
  fa_time : time s = c_time c + qn k * dt (g_param (c_cfg c));
  fa_log : c_log (cx s) = c_log c;
  fa_sens : forall q, In q (akeys (c_sensors c)) -> In q (akeys (c_sensors (cx s)))
}.

Lemma started_facts c s0 k s : started c s0 -> 0 < dt (g_param (c_cfg c)) -> after s0 k s -> facts c s0 k s.
Proof.
  intros S D A. apply started_inv in S as I. destruct S as (V & m & Um & H). apply init_run_ok in H as (Q1&Q2&Q3&Q4&Q5&Q6&_).
  assert (Pm : param s0 = g_param (c_cfg c)) by (unfold param; rewrite Q1; reflexivity).
  eapply after_facts in A as (I1 & I2 & I3 & I4 & I5 & I6 & I7); [|exact I|rewrite Pm; exact D].
  constructor; [exact I1|congruence|congruence|rewrite I4, Q2; reflexivity| |congruence|].
  - rewrite I5, Pm. unfold time at 1. rewrite Q6. reflexivity.
  - intros q Hq. apply I7. rewrite Q4. exact Hq.
Qed.

Lemma started_start c s0 : started c s0 ->
  (forall p, active s0 p <-> In p (akeys (c_models c))) /\ ev s0 = [] /\ s_last (sm s0) = None /\
  (forall p, In p (akeys (c_models c)) -> logger_of s0 p = Some new_logger) /\
  c_reports (cx s0) = c_reports c /\ c_first (cx s0) = c_first c.
Proof.
  intros (V & m & Um & H). destruct (valid_ctx_keys _ V) as [K1 K2].
  apply init_run_ok in H as (Q1&Q2&Q3&Q4&Q5&Q6&Q7&Q8&Q9&Q10&Q11&Q12&Q13&Q14&Q15).
  split; [intro p; unfold active; rewrite Q3, K1; tauto|]. split; [exact Q10|]. split; [rewrite Q11; exact Um|].
  split; [intros p Hp; apply Q14, K1; exact Hp|]. auto.
Qed.

(** Induction over an execution with the step relation at hand. *)
Lemma after_rect c s0 (P : nat -> st W -> Prop) : started c s0 -> 0 < dt (g_param (c_cfg c)) -> P O s0 ->
  (forall k s s', after s0 k s -> c_term (cx s) = false -> after s0 (S k) s' -> facts c s0 k s -> facts c s0 (S k) s' ->
     srel s s' -> P k s -> P (S k) s') ->
  forall k s, after s0 k s -> P k s.
Proof.
  intros S D H0 HS k s A. induction A as [|k s s' A IH Ht Hs]; [exact H0|].
  assert (A' : after s0 (Datatypes.S k) s') by (econstructor; eassumption).
  eapply HS; [exact A|exact Ht|exact A'| | |eapply after_step; eassumption|exact IH]; apply started_facts; assumption.
Qed.

Lemma active_back c s0 : started c s0 -> 0 < dt (g_param (c_cfg c)) -> forall k s, after s0 k s -> forall i si p,
  (i <= k)%nat -> after s0 i si -> active s p -> active si p.
Proof.
  intros S D k s A. induction A as [|k s s' A IH Ht Hs]; intros i si p Hi Ai Hp.
  - assert (i = 0)%nat by lia. subst. inversion Ai; subst. exact Hp.
  - destruct (Nat.eq_dec i (Datatypes.S k)) as [->|].
    + assert (A' : after s0 (Datatypes.S k) s') by (econstructor; eassumption). rewrite (after_fun _ _ _ A' _ Ai). exact Hp.
    + eapply IH; [|exact Ai|]; [lia|]. eapply srel_active; [|exact Hp]. eapply after_step; eassumption.
Qed.

(** ** C20 *)
Definition left_between s s' p : Prop := active s p /\ ~ active s' p.

Lemma states_log_Sorted s p : Inv s -> In p (akeys (c_models (cx s))) -> StronglySorted Qclt (map fst (states_log s p)).
Proof.
  intros I Hp. destruct (i_lg _ I p Hp) as (l & L1 & (H & Hi) & _). unfold states_log, samples. rewrite L1.
  change (map fst (combine (b_ts (lg_states l)) (b_vs (lg_states l)))) with
    (map fst (iter (mkSeq (b_ts (lg_states l)) (b_vs (lg_states l)) true))).
  rewrite iter_fst by (split; assumption). exact Hi.
Qed.

Lemma states_log_step c s0 k s s' p : started c s0 -> 0 < dt (g_param (c_cfg c)) -> after s0 k s -> srel s s' -> active s p ->
  exists x, state_of s p = Some x /\
   ((active s' p /\ states_log s' p = states_log s p ++ [(time s, x)]) \/
    (~ active s' p /\ exists x', state_of s' p = Some x' /\ states_log s' p = states_log s p ++ [(time s, x); (time s', x')])).
Proof.
  intros S D A R Ha. destruct (started_facts _ _ _ _ S D A) as [I _ _ _ _ _ _].
  destruct (sr_act _ _ R p Ha) as [m m1 m2 u l l' fin P1 P2 P3 P4 P5 P6 P7 P8 P9 P10 P11 P12 P13 P14].
  destruct (i_lg _ I p (i_am _ I p Ha)) as (l0 & L1 & (Wf & _)). assert (l0 = l) by congruence. subst l0.
  exists (get_state W m). split; [unfold state_of; rewrite P1; reflexivity|].
  unfold states_log. rewrite P5, P6, P7. destruct fin; cbn zeta.
  - right. split; [apply P8; reflexivity|]. exists (get_state W m1). split; [unfold state_of; rewrite P3, (P10 eq_refl); reflexivity|].
    rewrite samples_snoc; [|cbn; rewrite !app_length, (proj1 Wf); reflexivity]. rewrite samples_snoc by apply Wf. rewrite <- app_assoc. reflexivity.
  - left. split; [destruct (active_dec s' p) as [?|Hn]; [assumption|apply P8 in Hn; discriminate]|]. apply samples_snoc. apply Wf.
Qed.

Lemma states_log_spec c s0 : started c s0 -> 0 < dt (g_param (c_cfg c)) -> forall k s, after s0 k s -> forall p, In p (akeys (c_models c)) ->
  forall t x, In (t, x) (states_log s p) <->
    (exists i si, (i < k)%nat /\ after s0 i si /\ active si p /\ t = time si /\ state_of si p = Some x) \/
    (exists i si si', (i < k)%nat /\ after s0 i si /\ after s0 (S i) si' /\ active si p /\ ~ active si' p /\
        t = time si' /\ state_of si' p = Some x).
Proof.
  intros S D. apply (after_rect c s0 (fun k s => forall p, In p (akeys (c_models c)) ->
  forall t x, In (t, x) (states_log s p) <->
    (exists i si, (i < k)%nat /\ after s0 i si /\ active si p /\ t = time si /\ state_of si p = Some x) \/
    (exists i si si', (i < k)%nat /\ after s0 i si /\ after s0 (Datatypes.S i) si' /\ active si p /\ ~ active si' p /\
        t = time si' /\ state_of si' p = Some x)) S D).
  - intros p Hp t x. destruct (started_start _ _ S) as (_ & _ & _ & H & _). unfold states_log. rewrite (H p Hp). cbn.
    split; [contradiction|]. intros [(i & _ & Hi & _)|(i & _ & _ & Hi & _)]; lia.
  - intros k s s' A Ht A' F F' R IH p Hp t x. specialize (IH p Hp t x).
    destruct (active_dec s p) as [Ha|Hn].
    + destruct (states_log_step c s0 k s s' p S D A R Ha) as (y & Y1 & Y2).
      assert (E : In (t, x) (states_log s' p) <-> In (t, x) (states_log s p) \/ (t = time s /\ x = y) \/
          (~ active s' p /\ t = time s' /\ state_of s' p = Some x)).
      { destruct Y2 as [(Ha' & ->)|(Hn' & y' & Y3 & ->)]; rewrite in_app_iff; cbn; split.
        - intros [?|[[= <- <-]|[]]]; auto.
        - intros [?|[[-> ->]|(Hx & _)]]; auto.
        - intros [?|[[= <- <-]|[[= <- <-]|[]]]]; auto.
        - intros [?|[[-> ->]|(Hx & -> & Hy)]]; auto. assert (x = y') by congruence. subst; auto. }
      rewrite E, IH. split.
      * intros [[(i & si & Hi & B)|(i & si & si' & Hi & B)]|[[-> ->]|(H1 & H2 & H3)]].
        -- left. exists i, si. split; [lia|exact B].
        -- right. exists i, si, si'. split; [lia|exact B].
        -- left. exists k, s. split; [lia|]. auto.
        -- right. exists k, s, s'. split; [lia|]. auto 7.
      * intros [(i & si & Hi & B)|(i & si & si' & Hi & B)].
        -- destruct (Nat.eq_dec i k) as [->|].
           ++ destruct B as (B1 & B2 & B3 & B4). rewrite (after_fun _ _ _ A _ B1) in *. right; left. split; [exact B3|congruence].
           ++ left; left. exists i, si. split; [lia|exact B].
        -- destruct (Nat.eq_dec i k) as [->|].
           ++ destruct B as (B1 & B2 & B3 & B4 & B5 & B6). rewrite (after_fun _ _ _ A' _ B2) in *. right; right. auto.
           ++ left; right. exists i, si, si'. split; [lia|exact B].
    + destruct (sr_inact _ _ R p Hn) as (Hn' & _ & L & _). unfold states_log in *. rewrite L, IH. split.
      * intros [(i & si & Hi & B)|(i & si & si' & Hi & B)].
        -- left. exists i, si. split; [lia|exact B].
        -- right. exists i, si, si'. split; [lia|exact B].
      * intros [(i & si & Hi & B)|(i & si & si' & Hi & B)].
        -- destruct (Nat.eq_dec i k) as [->|].
           ++ destruct B as (B1 & B2 & _). rewrite (after_fun _ _ _ A _ B1) in *. contradiction.
           ++ left. exists i, si. split; [lia|exact B].
        -- destruct (Nat.eq_dec i k) as [->|].
           ++ destruct B as (B1 & B2 & B3 & _). rewrite (after_fun _ _ _ A _ B1) in *. contradiction.
           ++ right. exists i, si, si'. split; [lia|exact B].
Qed.

(** ** C22 *)
Lemma last_app {B} (l : list B) a : last_of (l ++ [a]) = Some a.
Proof. unfold last_of. rewrite app_length. cbn. rewrite nth_error_app2 by lia. replace (length l + 1 - 1 - length l)%nat with O by lia. reflexivity. Qed.

Record ainv c s0 (k : nat) s : Prop := mkAinv {
  ai_cmds : forall p, In p (akeys (c_models c)) -> commands_log s p = map (fun a => (ask_t a, ask_cmd a)) (asks s p);
  ai_first : forall p, In p (akeys (c_models c)) -> (0 < k)%nat -> exists a r, asks s p = a :: r /\ ask_t a = c_time c;
  ai_empty : k = O -> forall p, asks s p = [];
  ai_last : forall p, active s p -> (0 < k)%nat -> exists pre a, asks s p = pre ++ [a] /\ s_last (sm s) = Some (ask_t a) /\
     dget (s_cmds (sm s)) p = Some (ask_cmd a) /\
     (forall j, (j < k)%nat -> ask_t a < c_time c + qn j * dt (g_param (c_cfg c)) ->
         c_time c + qn j * dt (g_param (c_cfg c)) - ask_t a < dt_commands (g_param (c_cfg c)));
  ai_last0 : k = O -> s_last (sm s) = None;
  ai_grid : forall p a, In a (asks s p) -> exists j, (j < k)%nat /\ ask_t a = c_time c + qn j * dt (g_param (c_cfg c));
  ai_spaced : forall p pre a b suf, asks s p = pre ++ a :: b :: suf -> dt_commands (g_param (c_cfg c)) <= ask_t b - ask_t a /\
     ask_t a < ask_t b /\
     (forall j, ask_t a < c_time c + qn j * dt (g_param (c_cfg c)) -> c_time c + qn j * dt (g_param (c_cfg c)) < ask_t b ->
         c_time c + qn j * dt (g_param (c_cfg c)) - ask_t a < dt_commands (g_param (c_cfg c)));
  ai_same : forall p q, active s p -> active s q -> map ask_t (asks s p) = map ask_t (asks s q);
  ai_moves : forall p t u m m', In (t, u, m, m') (moves s p) -> exists pre a suf, asks s p = pre ++ a :: suf /\ ask_cmd a = u /\ ask_t a <= t /\
     (forall b, In b suf -> t < ask_t b);
  ai_movet : forall p, active s p -> map move_t (moves s p) = map (fun i => c_time c + qn i * dt (g_param (c_cfg c))) (List.seq 0 k);
  ai_movetick : forall p a, In a (moves s p) -> exists j, (j < k)%nat /\ move_t a = c_time c + qn j * dt (g_param (c_cfg c));
  ai_seen : forall p a, In a (asks s p) -> exists i si si' f f' ag ag', (i < k)%nat /\ after s0 i si /\ after s0 (S i) si' /\ active si p /\
     ask_t a = time si /\ snapshot si (ask_seen a) /\ get_sensor (cx si) p = Ok f /\
     sense W f (g_scen (c_cfg c)) (ask_seen a) p = Ok (f', ask_given a) /\
     dget (c_players (cx si)) p = Some ag /\ agent_cmds W ag (ask_given a) = Ok (ag', ask_cmd a)
}.

Lemma grid_lt (t0 d : Qc) i j : 0 < d -> t0 + qn i * d < t0 + qn j * d <-> (i < j)%nat.
Proof.
  intro D. rewrite <- qn_lt. split; intro H.
  - assert (H1 : qn i * d < qn j * d) by qlra.
    destruct (qltb_spec (qn i) (qn j)) as [?|L]; [assumption|].
    apply (Qcmult_le_compat_r _ _ d) in L; qlra.
  - apply (Qcmult_lt_compat_r _ _ d D) in H. qlra.
Qed.

Lemma app_snoc_inv {B} (l : list B) a pre x y suf : l ++ [a] = pre ++ x :: y :: suf ->
  (exists suf', l = pre ++ x :: y :: suf') \/ (suf = [] /\ y = a /\ l = pre ++ [x]).
Proof.
  destruct suf as [|z suf _] using rev_ind.
  - intro H. right. replace (pre ++ [x; y]) with ((pre ++ [x]) ++ [y]) in H by (rewrite <- app_assoc; reflexivity).
    apply app_inj_tail in H as [-> ->]. auto.
  - intro H. left. exists suf.
    replace (pre ++ x :: y :: suf ++ [z]) with ((pre ++ x :: y :: suf) ++ [z]) in H by (rewrite <- app_assoc; reflexivity).
    apply app_inj_tail in H as [-> _]. reflexivity.
Qed.

Lemma need_iff s p pre a : asks s p = pre ++ [a] -> s_last (sm s) = Some (ask_t a) ->
  need_commands s = true <-> dt_commands (param s) <= time s - ask_t a.
Proof. intros _ H. unfold need_commands. rewrite H. apply qleb_le. Qed.

Lemma ainv_holds c s0 : started c s0 -> 0 < dt (g_param (c_cfg c)) -> forall k s, after s0 k s -> ainv c s0 k s.
Proof.
  intros S D. apply (after_rect c s0 (ainv c s0) S D).
  - destruct (started_start _ _ S) as (S1 & S2 & S3 & S4 & _).
    assert (As : forall p, asks s0 p = []) by (intro p; unfold asks; rewrite S2; reflexivity).
    assert (Mv : forall p, moves s0 p = []) by (intro p; unfold moves; rewrite S2; reflexivity).
    constructor.
    + intros p Hp. rewrite As. unfold commands_log. rewrite (S4 p Hp). reflexivity.
    + intros; lia.
    + auto.
    + intros; lia.
    + auto.
    + intros p a. rewrite As. intros [].
    + intros p pre a b suf. rewrite As. destruct pre; discriminate.
    + intros p q _ _. rewrite !As. reflexivity.
    + intros p t u m m'. rewrite Mv. intros [].
    + intros p _. rewrite Mv. reflexivity.
    + intros p a. rewrite Mv. intros [].
    + intros p a. rewrite As. intros [].
  - intros k s s' A Ht A' F F' R IH.
    destruct IH as [J1 J2 J3 J4 J5 J6 J7 J8 J9 J10 J11 J12].
    pose proof (fa_time _ _ _ _ F) as T. pose proof (fa_param _ _ _ _ F) as Pm. pose proof (fa_inv _ _ _ _ F) as I.
    set (t0 := c_time c) in *. set (d := dt (g_param (c_cfg c))) in *. set (dc := dt_commands (g_param (c_cfg c))) in *.
    assert (Hn : need_commands s = true <-> k = O \/ exists p, active s p /\ exists pre a, asks s p = pre ++ [a] /\ dc <= time s - ask_t a).
    { destruct k as [|k].
      - split; [auto|]. intros _. unfold need_commands. rewrite (J5 eq_refl). reflexivity.
      - split.
        + intro Hn. right. destruct (c_players (cx s)) as [|[p ag] r] eqn:Ep.
          * exfalso. assert (Tm : c_term (cx s) = true).
            { inversion A as [|k' sp s'' Ap Htp Hsp]; subst. pose proof (after_step _ _ _ _ _ S D Ap Hsp) as Rp. apply (sr_term _ _ Rp).
              apply stop_empty. exact Ep. }
            congruence.
          * assert (Ha : active s p) by (unfold active; rewrite Ep; left; reflexivity). exists p. split; [exact Ha|].
            destruct (J4 p Ha) as (pre & a & E1 & E2 & _); [lia|]. exists pre, a. split; [exact E1|].
            apply (need_iff _ _ _ _ E1 E2) in Hn. rewrite Pm in Hn. exact Hn.
        + intros [?|(p & Ha & pre & a & E1 & E2)]; [lia|]. destruct (J4 p Ha) as (pre' & a' & E1' & E2' & _); [lia|].
          assert (a' = a). { rewrite E1 in E1'. apply app_inj_tail in E1' as [_ ?]. congruence. } subst a'.
          apply (need_iff _ _ _ _ E1 E2'). rewrite Pm. exact E2. }
    assert (Hnp : forall p, active s p -> need_commands s = true <-> asks s p = [] \/ exists pre a, asks s p = pre ++ [a] /\ dc <= time s - ask_t a).
    { intros p Ha. rewrite Hn. split.
      - intros [->|(q & Hq & pre & a & E1 & E2)]; [left; apply J3; reflexivity|].
        destruct k as [|k]; [left; apply J3; reflexivity|]. right.
        destruct (J4 p Ha) as (pre' & a' & E1' & E2' & _); [lia|]. destruct (J4 q Hq) as (pre'' & a'' & E1'' & E2'' & _); [lia|].
        assert (a'' = a). { rewrite E1 in E1''. apply app_inj_tail in E1'' as [_ ?]. congruence. } subst a''.
        exists pre', a'. split; [exact E1'|]. congruence.
      - intros [E|E]; [left|right; eauto]. destruct k as [|k]; [reflexivity|]. destruct (J4 p Ha) as (pre' & a' & E1' & _); [lia|].
        rewrite E in E1'. destruct pre'; discriminate. }
    (* what happened to an active player *)
    assert (Step : forall p, active s p -> exists u m m1, moves s' p = moves s p ++ [(time s, u, m, m1)] /\
       dget (s_cmds (sm s')) p = Some u /\
       ((need_commands s = true /\ (exists full o, asks s' p = asks s p ++ [(time s, full, o, u)] /\ commands_log s' p = commands_log s p ++ [(time s, u)] /\
           snapshot s full /\ exists f f' ag ag', get_sensor (cx s) p = Ok f /\ sense W f (g_scen (c_cfg c)) full p = Ok (f', o) /\
             dget (c_players (cx s)) p = Some ag /\ agent_cmds W ag o = Ok (ag', u))) \/
        (need_commands s = false /\ asks s' p = asks s p /\ commands_log s' p = commands_log s p /\ dget (s_cmds (sm s)) p = Some u))).
    { intros p Ha. destruct (sr_act _ _ R p Ha) as [m m1 m2 u l l' fin P1 P2 P3 P4 P5 P6 P7 P8 P9 P10 P11 P12 P13 P14].
      exists u, m, m1. split; [exact P4|]. split; [exact P13|].
      destruct (i_lg _ I p (i_am _ I p Ha)) as (l0 & L1 & (_ & Wf & _)). assert (l0 = l) by congruence. subst l0.
      unfold commands_log. rewrite P5, P6. destruct (need_commands s).
      - left. split; [reflexivity|].
        destruct P14 as (f & f' & o & a & a' & a'' & x & full & Q1 & Q2 & Q3 & Q4 & Q5 & Q6 & Q7 & Q8 & Q9 & Q10).
        exists full, o. split; [exact Q10|]. split; [rewrite Q7; apply samples_snoc; apply Wf|]. split; [exact Q1|].
        exists f, f', a, a'. rewrite <- (fa_cfg _ _ _ _ F). auto.
      - right. split; [reflexivity|]. destruct P14 as (Q1 & Q2 & Q3 & Q4 & Q5). split; [exact Q5|]. split; [rewrite Q2; reflexivity|exact Q1]. }
    assert (Stay : forall p, ~ active s p -> asks s' p = asks s p /\ moves s' p = moves s p /\ commands_log s' p = commands_log s p /\ ~ active s' p).
    { intros p Hp. destruct (sr_inact _ _ R p Hp) as (H1 & H2 & H3 & H4 & H5 & H6). split; [exact H5|]. split; [exact H6|].
      split; [unfold commands_log; rewrite H3; reflexivity|exact H1]. }
    assert (Act0 : k = O -> forall p, In p (akeys (c_models c)) -> active s p).
    { intros -> p Hp. inversion A; subst. apply (started_start _ _ S). exact Hp. }
    assert (Past : forall p a, In a (asks s p) -> ask_t a < time s).
    { intros p a Ha. destruct (J6 p a Ha) as (j & Hj & ->). rewrite T. apply grid_lt; assumption. }
    constructor.
    + intros p Hp. destruct (active_dec s p) as [Ha|Ha].
      * destruct (Step p Ha) as (u & m & m1 & _ & _ & [(_ & full & o & E1 & E2 & _)|(_ & E1 & E2 & _)]).
        -- rewrite E1, E2, (J1 p Hp), map_app. reflexivity.
        -- rewrite E1, E2. apply J1; exact Hp.
      * destruct (Stay p Ha) as (E1 & _ & E2 & _). rewrite E1, E2. apply J1; exact Hp.
    + intros p Hp _. destruct (Nat.eq_dec k 0) as [E|E].
      * pose proof (Act0 E p Hp) as Ha. destruct (Step p Ha) as (u & m & m1 & _ & _ & [(_ & full & o & E1 & E2 & _)|(Nn & _)]).
        -- rewrite E1, (J3 E). cbn. eexists _, _. split; [reflexivity|]. change (time s = t0). rewrite T, E, qn_0. ring.
        -- exfalso. rewrite (proj2 Hn) in Nn; [discriminate|left; exact E].
      * destruct (J2 p Hp) as (a & r & E1 & E2); [lia|]. destruct (active_dec s p) as [Ha|Ha].
        -- destruct (Step p Ha) as (u & m & m1 & _ & _ & [(_ & full & o & E3 & _)|(_ & E3 & _)]); rewrite E3, E1; cbn; eauto.
        -- destruct (Stay p Ha) as (E3 & _). rewrite E3, E1. eauto.
    + discriminate.
    + intros p Ha' _. assert (Ha : active s p) by (eapply srel_active; eassumption).
      destruct (Step p Ha) as (u & m & m1 & _ & Uc & [(Nd & full & o & E1 & E2 & _)|(Nd & E1 & E2 & E3)]).
      * exists (asks s p), (time s, full, o, u). split; [exact E1|]. split; [rewrite (sr_last _ _ R), Nd; reflexivity|]. split; [exact Uc|].
        intros j Hj Hlt. exfalso. change (ask_t (time s, full, o, u)) with (time s) in Hlt. rewrite T in Hlt. apply grid_lt in Hlt; [lia|exact D].
      * destruct (Nat.eq_dec k 0) as [E|E]; [exfalso; rewrite (proj2 Hn) in Nd; [discriminate|left; exact E]|].
        destruct (J4 p Ha) as (pre & a & B1 & B2 & B3 & B4); [lia|]. exists pre, a. split; [congruence|].
        split; [rewrite (sr_last _ _ R), Nd; exact B2|]. split; [congruence|].
        intros j Hj Hlt. destruct (Nat.eq_dec j k) as [->|]; [|apply B4; [lia|exact Hlt]].
        destruct (qltb_spec (t0 + qn k * d - ask_t a) dc) as [?|Hge]; [assumption|].
        rewrite <- T in Hge. rewrite (proj2 (Hnp p Ha)) in Nd; [discriminate|]. right. eauto.
    + discriminate.
    + intros p a Hin. destruct (active_dec s p) as [Ha|Ha].
      * destruct (Step p Ha) as (u & m & m1 & _ & Uc & [(Nd & full & o & E1 & E2 & _)|(Nd & E1 & E2 & E3)]); rewrite E1 in Hin.
        -- apply in_app_iff in Hin as [Hin|[<-|[]]].
           ++ destruct (J6 p a Hin) as (j & Hj & E). exists j. split; [lia|exact E].
           ++ exists k. split; [lia|]. exact T.
        -- destruct (J6 p a Hin) as (j & Hj & E). exists j. split; [lia|exact E].
      * destruct (Stay p Ha) as (E1 & _). rewrite E1 in Hin. destruct (J6 p a Hin) as (j & Hj & E). exists j. split; [lia|exact E].
    + intros p pre a b suf E. destruct (active_dec s p) as [Ha|Ha].
      * destruct (Step p Ha) as (u & m & m1 & _ & Uc & [(Nd & full & o & E1 & E2 & _)|(Nd & E1 & E2 & E3)]); rewrite E1 in E; [|apply (J7 p pre a b suf E)].
        apply app_snoc_inv in E as [[suf' E]|(-> & -> & E)]; [apply (J7 p pre a b suf' E)|].
        change (ask_t (time s, full, o, u)) with (time s).
        assert (Hin : In a (asks s p)) by (rewrite E; apply in_or_app; right; left; reflexivity).
        apply (Hnp p Ha) in Nd as [C|(pre' & a' & E' & Hd)]; [rewrite C in Hin; contradiction|].
        assert (a' = a). { rewrite E in E'. apply app_inj_tail in E' as [_ ?]. congruence. } subst a'.
        split; [exact Hd|]. split; [apply (Past p); exact Hin|]. intros j H1 H2.
        destruct (Nat.eq_dec k 0) as [E0|E0]; [rewrite (J3 E0) in Hin; contradiction|].
        destruct (J4 p Ha) as (pre'' & a'' & B1 & B2 & B3 & B4); [lia|].
        assert (a'' = a). { rewrite E in B1. apply app_inj_tail in B1 as [_ ?]. congruence. } subst a''.
        apply B4; [|exact H1]. rewrite T in H2. apply grid_lt in H2; [exact H2|exact D].
      * destruct (Stay p Ha) as (E1 & _). rewrite E1 in E. apply (J7 p pre a b suf E).
    + intros p q Hp' Hq'. assert (Hp : active s p) by (eapply srel_active; eassumption). assert (Hq : active s q) by (eapply srel_active; eassumption).
      destruct (Step p Hp) as (u & m & m1 & _ & _ & [(Nd & full & o & E1 & _)|(Nd & E1 & _)]);
      destruct (Step q Hq) as (u' & m' & m1' & _ & _ & [(Nd' & full' & o' & E1' & _)|(Nd' & E1' & _)]); try congruence; rewrite E1, E1'.
      * rewrite !map_app, (J8 p q Hp Hq). reflexivity.
      * apply J8; assumption.
    + intros p t u m m' Hin. destruct (active_dec s p) as [Ha|Ha].
      * destruct (Step p Ha) as (u1 & m1 & m1' & Mv & Uc & C). rewrite Mv in Hin.
        apply in_app_iff in Hin as [Hin|[E|[]]].
        -- destruct (J9 p t u m m' Hin) as (pre & a & suf & B1 & B2 & B3 & B4).
           destruct C as [(Nd & full & o & E1 & _)|(Nd & E1 & _)]; rewrite E1, B1.
           ++ exists pre, a, (suf ++ [(time s, full, o, u1)]). split; [rewrite <- app_assoc; reflexivity|]. split; [exact B2|]. split; [exact B3|].
              intros b Hb. apply in_app_iff in Hb as [Hb|[<-|[]]]; [apply B4; exact Hb|].
              destruct (J11 p _ Hin) as (j & Hj & Ej). change (move_t (t, u, m, m')) with t in Ej. rewrite Ej. change (ask_t (time s, full, o, u1)) with (time s).
              rewrite T. apply grid_lt; assumption.
           ++ exists pre, a, suf. auto.
        -- injection E as <- <- <- <-. destruct C as [(Nd & full & o & E1 & _)|(Nd & E1 & _ & E3)].
           ++ rewrite E1. exists (asks s p), (time s, full, o, u1), []. split; [reflexivity|]. split; [reflexivity|]. split; [apply Qcle_refl|]. intros b [].
           ++ destruct (Nat.eq_dec k 0) as [E|E]; [exfalso; rewrite (proj2 Hn) in Nd; [discriminate|left; exact E]|].
              destruct (J4 p Ha) as (pre & a & B1 & B2 & B3 & B4); [lia|]. rewrite E1, B1. exists pre, a, []. split; [reflexivity|].
              split; [congruence|]. split; [|intros b []]. apply Qclt_le_weak. apply (Past p). rewrite B1. apply in_or_app; right; left; reflexivity.
      * destruct (Stay p Ha) as (E1 & E2 & _). rewrite E1. rewrite E2 in Hin. apply (J9 p t u m m' Hin).
    + intros p Ha'. assert (Ha : active s p) by (eapply srel_active; eassumption).
      destruct (Step p Ha) as (u1 & m1 & m1' & Mv & _). rewrite Mv, map_app, (J10 p Ha), seq_S, map_app. cbn. unfold move_t; cbn. rewrite T. reflexivity.
    + intros p a Hin. destruct (active_dec s p) as [Ha|Ha].
      * destruct (Step p Ha) as (u1 & m1 & m1' & Mv & _). rewrite Mv in Hin. apply in_app_iff in Hin as [Hin|[<-|[]]].
        -- destruct (J11 p a Hin) as (j & Hj & E). exists j. split; [lia|exact E].
        -- exists k. split; [lia|]. exact T.
      * destruct (Stay p Ha) as (_ & E2 & _). rewrite E2 in Hin. destruct (J11 p a Hin) as (j & Hj & E). exists j. split; [lia|exact E].
    + intros p a Hin.
      assert (Old : In a (asks s p) -> exists i si si' f f' ag ag', (i < Datatypes.S k)%nat /\ after s0 i si /\ after s0 (Datatypes.S i) si' /\ active si p /\
         ask_t a = time si /\ snapshot si (ask_seen a) /\ get_sensor (cx si) p = Ok f /\
         sense W f (g_scen (c_cfg c)) (ask_seen a) p = Ok (f', ask_given a) /\
         dget (c_players (cx si)) p = Some ag /\ agent_cmds W ag (ask_given a) = Ok (ag', ask_cmd a)).
      { intro Hi. destruct (J12 p a Hi) as (i & si & si' & f & f' & ag & ag' & Hik & B). exists i, si, si', f, f', ag, ag'. split; [lia|exact B]. }
      destruct (active_dec s p) as [Ha|Ha].
      * destruct (Step p Ha) as (u & m & m1 & _ & Uc & [(Nd & full & o & E1 & E2 & Sn & f & f' & ag & ag' & G1 & G2 & G3 & G4)|(Nd & E1 & _)]); rewrite E1 in Hin; [|apply Old; exact Hin].
        apply in_app_iff in Hin as [Hin|[<-|[]]]; [apply Old; exact Hin|].
        exists k, s, s', f, f', ag, ag'. split; [lia|]. unfold ask_t, ask_seen, ask_given, ask_cmd; cbn. auto 12.
      * destruct (Stay p Ha) as (E1 & _). rewrite E1 in Hin. apply Old; exact Hin.
Qed.

(** A request happens in a step iff it is due. *)
Lemma asked_iff_due c s0 k s s' p : started c s0 -> 0 < dt (g_param (c_cfg c)) -> after s0 k s -> c_term (cx s) = false ->
  srel s s' -> active s p ->
  (due s p <-> need_commands s = true).
Proof.
  intros S D A Ht R Ha. pose proof (ainv_holds _ _ S D _ _ A) as [J1 J2 J3 J4 J5 J6 J7 J8 J9 J10 J11 J12].
  pose proof (started_facts _ _ _ _ S D A) as F. unfold due. rewrite (fa_param _ _ _ _ F).
  destruct k as [|k].
  - split; [|intros _; left; apply J3; reflexivity]. intros _. unfold need_commands. rewrite (J5 eq_refl). reflexivity.
  - destruct (J4 p Ha) as (pre & a & E1 & E2 & _); [lia|]. rewrite (need_iff _ _ _ _ E1 E2), (fa_param _ _ _ _ F). split.
    + intros [C|(pre' & a' & E & H)]; [rewrite C in E1; destruct pre; discriminate|].
      rewrite E in E1. apply app_inj_tail in E1 as [_ ->]. exact H.
    + intro H. right. eauto.
Qed.
End Whole.
