(** When agents are asked. *)
From Coq Require Import QArith Qcanon ZArith List Bool Arith Lia.
From Verif Require Import Base Num SeqModel DictLemmas SimulatorModel SimulatorSpec SimulatorWorld SimulatorMain.
Import ListNotations.
Open Scope Qc_scope.
(* BODY *)

(** ** C132  The schedule of the command requests *)

Lemma up_S : forall k n, (0 < n)%nat -> (exists q, k = q * n)%nat -> ((k + 1 + n - 1) / n = (k + n - 1) / n + 1)%nat.
Proof.
  intros k n H [q ->]. replace (q * n + 1 + n - 1)%nat with (0 + (q + 1) * n)%nat by nia. replace (q * n + n - 1)%nat with ((n - 1) + q * n)%nat by lia.
  rewrite !Nat.div_add by lia. rewrite (Nat.div_small 0), (Nat.div_small (n - 1)) by lia. lia.
Qed.

Lemma up_same : forall q r n, (0 < r < n)%nat -> ((q * n + r + 1 + n - 1) / n = q + 1 /\ (q * n + r + n - 1) / n = q + 1)%nat.
Proof.
  intros q r n H. replace (q * n + r + 1 + n - 1)%nat with (r + (q + 1) * n)%nat by nia. replace (q * n + r + n - 1)%nat with ((r - 1) + (q + 1) * n)%nat by nia.
  rewrite !Nat.div_add by lia. rewrite (Nat.div_small r), (Nat.div_small (r - 1)) by lia. lia.
Qed.

Lemma grid_diff : forall t (d : Qc) a b, (a <= b)%nat -> t + qn b * d - (t + qn a * d) = qn (b - a) * d.
Proof. intros t d a b H. replace b with (a + (b - a))%nat at 1 by lia. rewrite qn_add. ring. Qed.

Lemma started_nothing : forall W (c : ctx W) s0 p, started c s0 -> asks s0 p = [] /\ moves s0 p = [].
Proof.
  intros W c s0 p (V & m & U & E). destruct (SimulatorProofs5.init_run_ok _ _ _ E) as (_ & _ & _ & _ & _ & _ & _ & _ & _ & H & _). unfold asks, moves. rewrite H. split; reflexivity.
Qed.

(** Let n be the number of steps in a command period, rounded up (at least 1).  Every agent is asked at the start and then at every n-th iteration it takes part in, and at no other; while it is in the simulation it takes part in every iteration. *)
Theorem C132_schedule : forall W (c : ctx W) s0 k s p n, started c s0 -> 0 < dt (g_param (c_cfg c)) -> after s0 k s -> In p (akeys (c_models c)) ->
  (0 < n)%nat -> dt_commands (g_param (c_cfg c)) <= qn n * dt (g_param (c_cfg c)) -> (n = 1%nat \/ qn (n - 1) * dt (g_param (c_cfg c)) < dt_commands (g_param (c_cfg c))) ->
  map ask_t (asks s p) = map (fun j => c_time c + qn (j * n) * dt (g_param (c_cfg c))) (List.seq 0 ((length (moves s p) + n - 1) / n)) /\
  (active s p -> length (moves s p) = k).
Proof.
  intros W c s0 k s p n St D A Hp Hn Hhi Hlo. set (d := dt (g_param (c_cfg c))) in *. induction A as [|k s s' A IH T E].
  - destruct (started_nothing W c s0 p St) as [-> ->]. cbn [length map Nat.add]. rewrite Nat.div_small by lia. split; reflexivity.
  - destruct IH as [IH1 IH2]. destruct (C22_asked_exactly_when_due_pf W c s0 k s s' p St D A T E) as [X1 X2]. destruct (C22_model_stepped_each_iteration_pf W c s0 k s s' p St D A T E) as [Y1 Y2].
    assert (AD : {active s p} + {~ active s p}) by (apply in_dec, Nat.eq_dec). destruct AD as [Ha|Ha].
    + specialize (IH2 Ha). rewrite IH2 in IH1. destruct (Y1 Ha) as (u & m & m1 & _ & _ & EM & _). rewrite EM, app_length, IH2. cbn [length].
      split; [|intros _; lia].
      assert (TM := C20_time_is_the_dt_grid_pf W c s0 k s St D A). fold d in TM.
      assert (PM : param s = g_param (c_cfg c)) by (eapply SimulatorProofs7.fa_param, SimulatorProofs7.started_facts; eassumption).
      assert (Yes : (exists q, k = q * n)%nat -> due s p -> map ask_t (asks s' p) = map (fun j => c_time c + qn (j * n) * d) (List.seq 0 ((k + 1 + n - 1) / n))).
      { intros K Hd. destruct (X1 Ha Hd) as (f & o & v & ->). rewrite map_app, IH1, (up_S k n Hn K), seq_app, map_app. cbn [map ask_t fst Nat.add List.seq]. rewrite TM. do 3 f_equal.
        destruct K as [q ->]. replace (q * n + n - 1)%nat with ((n - 1) + q * n)%nat by lia. rewrite Nat.div_add, (Nat.div_small (n - 1)) by lia. reflexivity. }
      assert (No : forall q r, k = (q * n + r)%nat -> (0 < r < n)%nat -> ~ due s p -> map ask_t (asks s' p) = map (fun j => c_time c + qn (j * n) * d) (List.seq 0 ((k + 1 + n - 1) / n))).
      { intros q r -> Hr Hd. rewrite (X2 ltac:(tauto)), IH1. destruct (up_same q r n Hr) as [-> ->]. reflexivity. }
      assert (Last : forall q r, k = (q * n + r)%nat -> (0 < r <= n)%nat -> (forall pre a, asks s p = pre ++ [a] -> ask_t a = c_time c + qn (q * n) * d) /\ asks s p <> []).
      { intros q r -> Hr. assert (C : ((q * n + r + n - 1) / n = q + 1)%nat) by (replace (q * n + r + n - 1)%nat with ((r - 1) + (q + 1) * n)%nat by nia; rewrite Nat.div_add, (Nat.div_small (r - 1)) by lia; lia).
        rewrite C, seq_app, map_app in IH1. cbn [map Nat.add List.seq] in IH1. split.
        - intros pre a Hx. rewrite Hx, map_app in IH1. cbn [map] in IH1. apply app_inj_tail in IH1. apply IH1.
        - intros Hx. rewrite Hx in IH1. destruct (map _ (List.seq 0 q)); discriminate. }
      destruct (Nat.eq_dec k 0) as [K0|K0].
      { apply Yes; [exists 0%nat; lia|]. left. rewrite K0 in IH1. cbn [Nat.add] in IH1. rewrite Nat.div_small in IH1 by lia. destruct (asks s p); [reflexivity|discriminate]. }
      pose proof (Nat.div_mod k n ltac:(lia)) as DM. pose proof (Nat.mod_upper_bound k n ltac:(lia)) as MB. set (q := (k / n)%nat) in *. set (r := (k mod n)%nat) in *.
      destruct (Nat.eq_dec r 0) as [R0|R0].
      * assert (Q1 : exists q', q = S q') by (clearbody q; destruct q as [|q']; [lia|exists q'; reflexivity]). destruct Q1 as [q' Q1]. assert (K1 : k = (q' * n + n)%nat) by (rewrite DM, Q1, R0; lia).
        apply Yes; [exists q; lia|]. right. destruct (Last q' n K1 ltac:(lia)) as [L1 L2]. destruct (exists_last L2) as (pre & a & Ea). exists pre, a. split; [exact Ea|].
        rewrite (L1 _ _ Ea), PM, TM, grid_diff by lia. replace (k - q' * n)%nat with n by lia. exact Hhi.
      * apply (No q r); [lia|lia|]. destruct (Last q r ltac:(lia) ltac:(lia)) as [L1 L2]. intros [Hd|(pre & a & Ea & Hd)]; [exact (L2 Hd)|].
        rewrite (L1 _ _ Ea), PM, TM, grid_diff in Hd by lia. replace (k - q * n)%nat with r in Hd by lia.
        destruct Hlo as [->|Hlo]; [lia|]. apply (Qclt_not_le _ _ Hlo). eapply Qcle_trans; [exact Hd|]. apply Qcmult_le_compat_r; [apply qn_le; lia|apply Qclt_le_weak; exact D].
    + destruct (Y2 Ha) as [-> _]. rewrite (X2 ltac:(tauto)). split; [exact IH1|]. intros Ha'. exfalso.
      destruct (C23_gone_for_good_pf W c s0 k s p 1 s' St D A Ha ltac:(econstructor; [constructor|exact T|exact E])) as [G _]. exact (G Ha').
Qed.

(** A simulation with the default parameters that starts at time 0: the clock shows k/20 after k iterations; everybody is asked at every second iteration, every tenth of a second; no iteration begins after 6 seconds, so there are at most 121; and apart from that it ends when nobody is left, or nobody with a mission, or time has passed since the first collision. *)
Theorem C132_defaults : forall W (c : ctx W) s0 k s, started c s0 -> g_param (c_cfg c) = default_param -> c_time c = 0 -> reports_stamped W -> after s0 k s ->
  time s = qn k / qz 20 /\ (k <= 121)%nat /\
  (forall p, active s p -> map ask_t (asks s p) = map (fun j => qn j / qz 10) (List.seq 0 ((k + 1) / 2))) /\
  ((0 < k)%nat -> (c_term (cx s) = true <->
    k = 121%nat \/ (exists f, c_first (cx s) = Some f /\ f < time s) \/ (forall p, ~ active s p) \/
    (g_missions (c_cfg c) <> [] /\ forall p, In p (akeys (g_missions (c_cfg c))) -> ~ active s p))).
Proof.
  intros W c s0 k s St P T0 RS A. assert (D : 0 < dt (g_param (c_cfg c))) by (rewrite P; reflexivity).
  assert (F := SimulatorProofs7.started_facts _ _ _ _ St D A). assert (T := SimulatorProofs7.fa_time _ _ _ _ F). assert (PM := SimulatorProofs7.fa_param _ _ _ _ F). assert (CG := SimulatorProofs7.fa_cfg _ _ _ _ F).
  assert (D20 : dt default_param = / qz 20) by (apply Qc_is_canon; vm_compute; reflexivity). rewrite P, D20, T0 in T.
  assert (T' : time s = qn k / qz 20) by (rewrite T; unfold Qcdiv; ring).
  assert (LT : forall j, qn j / qz 20 <= qz 6 <-> (j <= 120)%nat).
  { intros j. rewrite <- qn_le. replace (qn 120) with (qz 6 * qz 20) by (apply Qc_is_canon; vm_compute; reflexivity). split; intros H.
    - replace (qn j) with (qn j / qz 20 * qz 20) by (field; discriminate). apply Qcmult_le_compat_r; [exact H|discriminate].
    - replace (qz 6) with (qz 6 * qz 20 / qz 20) by (field; discriminate). unfold Qcdiv. apply Qcmult_le_compat_r; [exact H|discriminate]. }
  split; [exact T'|]. split.
  { inversion A as [|k' s1 s2 A1 T1 E1]; subst; [lia|]. destruct k' as [|k']; [lia|].
    assert (L := C21_no_iteration_past_the_limit_pf W c s0 k' s1 St D A1 T1). rewrite (C20_time_is_the_dt_grid_pf W c s0 _ _ St D A1), P, D20, T0 in L.
    replace (0 + qn (S k') * / qz 20) with (qn (S k') / qz 20) in L by (unfold Qcdiv; ring). change (max_sim_time default_param) with (qz 6) in L. apply LT in L. lia. }
  split.
  { intros p Ha. assert (Hp : In p (akeys (c_models c))) by (rewrite <- (SimulatorProofs7.fa_models _ _ _ _ F); apply (SimulatorProofs5.i_am _ (SimulatorProofs7.fa_inv _ _ _ _ F)); exact Ha).
    destruct (C132_schedule_pf W c s0 k s p 2 St D A Hp ltac:(lia)) as [H1 H2]; [rewrite P; vm_compute; discriminate|right; rewrite P; vm_compute; reflexivity|].
    rewrite (H2 Ha) in H1. rewrite H1. replace (k + 2 - 1)%nat with (k + 1)%nat by lia. apply map_ext. intros j. rewrite P, D20, T0. replace (j * 2)%nat with (j + j)%nat by lia. rewrite qn_add. unfold Qcdiv. replace (/ qz 10) with (/ qz 20 + / qz 20) by (apply Qc_is_canon; vm_compute; reflexivity). ring. }
  intros K. destruct k as [|k]; [lia|]. rewrite (C26_over_iff_reason_pf W c s0 k s St D RS); [|rewrite P; vm_compute; discriminate|exact A].
  assert (PC : g_param (c_cfg (cx s)) = default_param) by (rewrite CG; exact P). fold (time s). split.
  - intros [X|f X Y|X|X Y].
    + left. rewrite PC in X. change (max_sim_time default_param) with (qz 6) in X. change (c_time (cx s)) with (time s) in X. rewrite T' in X.
      assert (~ (S k <= 120)%nat) by (intros Z; apply LT in Z; exact (Qclt_not_le _ _ X Z)).
      assert (B : (S k <= 121)%nat); [|lia]. inversion A as [|k' s1 s2 A1 T1 E1]; subst. destruct k as [|k]; [lia|].
      assert (L := C21_no_iteration_past_the_limit_pf W c s0 k s1 St D A1 T1). rewrite (C20_time_is_the_dt_grid_pf W c s0 _ _ St D A1), P, D20, T0 in L.
      replace (0 + qn (S k) * / qz 20) with (qn (S k) / qz 20) in L by (unfold Qcdiv; ring). change (max_sim_time default_param) with (qz 6) in L. apply LT in L. lia.
    + right; left. exists f. split; [exact X|]. rewrite PC in Y. replace (f + after_collision default_param) with f in Y by (cbn; ring). exact Y.
    + right; right; left. intros p. unfold active. rewrite X. intros [].
    + right; right; right. rewrite CG in X, Y. split; [exact X|exact Y].
  - intros [X|[(f & X & Y)|[X|[X Y]]]].
    + apply stop_time. rewrite PC. change (max_sim_time default_param) with (qz 6). change (c_time (cx s)) with (time s). rewrite T'. apply Qcnot_le_lt. intros Z. apply LT in Z. lia.
    + eapply stop_collision; [exact X|]. rewrite PC. replace (f + after_collision default_param) with f by (cbn; ring). exact Y.
    + apply stop_empty. destruct (c_players (cx s)) as [|[p a] r] eqn:E; [reflexivity|]. exfalso. apply (X p). unfold active. rewrite E. left. reflexivity.
    + apply stop_missions; rewrite CG; assumption.
Qed.

Lemma get_res : forall {A} (f : A -> bool) (r : result A), match r with Ok a => f a | Err _ => false end = true -> exists a, r = Ok a /\ f a = true.
Proof. intros A f [a|e] H; [exists a; split; [reflexivity|exact H]|discriminate]. Qed.

(** One agent on the line with the default parameters. *)
Definition ctx_default : ctx line := @mkCtx line (@mkConfig line [] default_param [] true 0%nat) [(1%nat, qz 0)] [(1%nat, qz 1)] [] [] 0 false [] None.

Example C132_ex : started ctx1 start1 /\ 0 < dt (g_param (c_cfg ctx1)) /\ dt_commands (g_param (c_cfg ctx1)) <= qn 2 * dt (g_param (c_cfg ctx1)) /\ qn 1 * dt (g_param (c_cfg ctx1)) < dt_commands (g_param (c_cfg ctx1)) /\
  after start1 5 (nth_st start1 5) /\ map (fun a => this (ask_t a)) (asks (nth_st start1 5) 2) = [0#1; 1#1; 2#1]%Q /\ length (moves (nth_st start1 5) 2) = 5%nat /\ In 2%nat (akeys (c_models ctx1)) /\
  (exists s0 s1, started ctx_default s0 /\ after s0 1 s1 /\ active s1 1) /\ g_param (c_cfg ctx_default) = default_param /\ c_time ctx_default = 0 /\ reports_stamped line.
Proof.
  split; [exact started1|]. split; [exact dt1|]. split; [vm_compute; discriminate|]. split; [vm_compute; reflexivity|]. split; [apply after1; lia|]. split; [vm_compute; reflexivity|]. split; [vm_compute; reflexivity|]. split; [right; left; reflexivity|].
  split.
  - destruct (get_res (fun s => match step s with Ok s' => negb (c_term (cx s)) && dmem (c_players (cx s')) 1%nat | Err _ => false end) (init_run ctx_default (new_simulator (W := line)))) as (s & E1 & E2); [vm_compute; reflexivity|].
    destruct (step s) as [s'|] eqn:E3; [|discriminate]. apply andb_true_iff in E2 as [E2 E4]. exists s, s'. split; [split; [|exists new_simulator; split; [reflexivity|exact E1]]|].
    + split; [vm_compute; reflexivity|]. repeat split; cbn; repeat constructor; cbn; intuition congruence.
    + split; [econstructor; [constructor|destruct (c_term (cx s)); [discriminate|reflexivity]|exact E3]|]. apply SimulatorProofs.dmem_spec. exact E4.
  - split; [reflexivity|]. split; [reflexivity|]. split; [intros sc p q t a b r|intros p ob t m r]; cbn; intros [= <-]; reflexivity.
Qed.

