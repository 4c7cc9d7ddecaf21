(** Effect of the collision checks. *)
From Coq Require Import QArith Qcanon ZArith List Bool Arith Lia Sorted.
From Verif Require Import Base Num SeqModel SeqSpec SeqProofs SeqProofs2 DictLemmas SimulatorModel SimulatorSpec SimulatorProofs SimulatorProofs2.
Import ListNotations.
Open Scope Qc_scope.

Section Coll.
Context {W : world}.
Implicit Types (s : st W) (p q : player).

Record crel s s' (np : list (nat * nat * Qc)) (ne : list (nat * nat * Qc)) (new : list (report (w_D W))) : Prop := mkCrel {
  cr_cfg : c_cfg (cx s') = c_cfg (cx s);
  cr_time : c_time (cx s') = c_time (cx s);
  cr_term : c_term (cx s') = c_term (cx s);
  cr_log : c_log (cx s') = c_log (cx s);
  cr_players : c_players (cx s') = c_players (cx s);
  cr_sensors : c_sensors (cx s') = c_sensors (cx s);
  cr_sm : sm s' = sm s;
  cr_models : akeys (c_models (cx s')) = akeys (c_models (cx s));
  cr_asks : forall p, asks_of p (ev s') = asks_of p (ev s);
  cr_moves : forall p, moves_of p (ev s') = moves_of p (ev s);
  cr_leaves : leaves_of (ev s') = leaves_of (ev s);
  cr_pairs : pairs_of (ev s') = pairs_of (ev s) ++ np;
  cr_envs : envs_of (ev s') = envs_of (ev s) ++ ne;
  cr_expected : expected_reports (ev s') = expected_reports (ev s) ++ new;
  cr_reports : c_reports (cx s') = c_reports (cx s) ++ new;
  cr_untouched : forall q, (forall a b t, In (a, b, t) np -> a <> q /\ b <> q) ->
     (forall i t, ~ In (q, i, t) ne) -> model_of s' q = model_of s q;
  cr_foot : resolution_keeps_footprint W -> forall q,
     option_map (footprint W) (model_of s' q) = option_map (footprint W) (model_of s q);
  cr_stamped : reports_stamped W -> Forall (fun r => r_time r = time s) new;
  cr_first : reports_stamped W -> c_first (cx s') = match new with [] => c_first (cx s) | _ => earlier (time s) (c_first (cx s)) end
}.

Lemma earlier_idem t f : earlier t (earlier t f) = earlier t f.
Proof.
  unfold earlier. destruct f as [f|].
  - destruct (qltb_spec t f) as [H|H].
    + destruct (qltb_spec t t); [qlra|reflexivity].
    + destruct (qltb_spec t f) as [H2|H2]; [qlra|reflexivity].
  - destruct (qltb_spec t t); [qlra|reflexivity].
Qed.

Lemma crel_refl s : crel s s [] [] [].
Proof. constructor; rewrite ?app_nil_r; auto. Qed.
Lemma crel_trans s1 s2 s3 np1 ne1 nw1 np2 ne2 nw2 : crel s1 s2 np1 ne1 nw1 -> crel s2 s3 np2 ne2 nw2 ->
  crel s1 s3 (np1 ++ np2) (ne1 ++ ne2) (nw1 ++ nw2).
Proof.
  intros [A1 A2 A3 A4 A5 A6 A7 A8 A9 A10 A11 A12 A13 A14 A15 A16 A17 A18 A19]
         [B1 B2 B3 B4 B5 B6 B7 B8 B9 B10 B11 B12 B13 B14 B15 B16 B17 B18 B19].
  assert (T : time s2 = time s1) by exact A2.
  constructor; [congruence|congruence|congruence|congruence|congruence|congruence|congruence|congruence| | |congruence| | | | | | | | ].
  - intro p. rewrite B9; apply A9.
  - intro p. rewrite B10; apply A10.
  - rewrite B12, A12, app_assoc; reflexivity.
  - rewrite B13, A13, app_assoc; reflexivity.
  - rewrite B14, A14, app_assoc; reflexivity.
  - rewrite B15, A15, app_assoc; reflexivity.
  - intros q H1 H2. rewrite B16, A16.
    + reflexivity.
    + intros a b t Hi. eapply H1. apply in_or_app; left; exact Hi.
    + intros i t Hi. eapply H2. apply in_or_app; left; exact Hi.
    + intros a b t Hi. eapply H1. apply in_or_app; right; exact Hi.
    + intros i t Hi. eapply H2. apply in_or_app; right; exact Hi.
  - intros K q. rewrite B17 by exact K. apply A17; exact K.
  - intro K. apply Forall_app. split; [apply A18; exact K|]. rewrite <- T. apply B18; exact K.
  - intro K. rewrite B19, A19 by exact K. rewrite T. destruct nw1 as [|r1 l1], nw2 as [|r2 l2]; cbn; auto.
    rewrite earlier_idem. reflexivity.
Qed.

Lemma check_env1_ok p s idx s' : check_env1 p s idx = Ok s' ->
  exists new, crel s s' [] [(p, idx, time s)] new.
Proof.
  unfold check_env1. intro H.
  destruct (dgetE (c_models (cx s)) p) as [m|] eqn:Em; [|discriminate]. apply agetE_Ok in Em.
  destruct (item _ idx) as [ob|] eqn:Eo; [|discriminate].
  destruct (resolve_env W p ob (time s) m) as [m' out] eqn:Er. cbv zeta in H.
  set (s1 := mkSt (set_models (cx s) (dset (c_models (cx s)) p m')) (sm s) (EEnv p idx (time s) (is_dyn W m') out :: ev s)) in *.
  assert (Km : In p (akeys (c_models (cx s)))) by (eapply dget_Some_In; exact Em).
  assert (Base : forall new c' f', expected_reports [EEnv p idx (time s) (is_dyn W m') out] = new ->
    (reports_stamped W -> Forall (fun r => r_time r = time s) new) ->
    (reports_stamped W -> f' = match new with [] => c_first (cx s) | _ => earlier (time s) (c_first (cx s)) end) ->
    c' = c_reports (cx s) ++ new ->
    crel s (upd_cx s1 (set_reports (cx s1) c' f')) [] [(p, idx, time s)] new).
  { intros new c' f' E1 E2 E3 ->. unfold s1. constructor; cbn; auto.
    - apply keys_dset; exact Km.
    - intro q. rewrite asks_of_cons. apply app_nil_r.
    - intro q. rewrite moves_of_cons. apply app_nil_r.
    - rewrite leaves_of_cons. apply app_nil_r.
    - rewrite pairs_of_cons. reflexivity.
    - apply envs_of_cons.
    - rewrite expected_reports_cons. rewrite E1. reflexivity.
    - intros q _ H2. unfold model_of; cbn. apply dget_dset_other. intros <-. eapply H2. left; reflexivity.
    - intros [_ K] q. unfold model_of; cbn. rewrite dget_dset. destruct (Nat.eqb_spec p q) as [<-|]; [|reflexivity].
      cbn. rewrite Em. cbn. f_equal. specialize (K p ob (time s) m). rewrite Er in K. exact K. }
  assert (Same : upd_cx s1 (set_reports (cx s1) (c_reports (cx s)) (c_first (cx s))) = s1) by reflexivity.
  destruct out as [[r|]|e].
  - destruct (is_dyn W m') eqn:Ed; injection H as <-.
    + exists []. rewrite <- Same. apply Base; auto. rewrite app_nil_r; reflexivity.
    + exists [r]. apply Base; auto. intros [_ K]. constructor; [|constructor].
      apply (K p ob (time s) m). rewrite Er. reflexivity.
  - injection H as <-. exists []. rewrite <- Same. apply Base; auto.
    + unfold expected_reports; cbn. destruct (is_dyn W m'); reflexivity.
    + rewrite app_nil_r; reflexivity.
  - destruct e; try discriminate. destruct (is_dyn W m') eqn:Ed; injection H as <-.
    + exists []. rewrite <- Same. apply Base; auto. rewrite app_nil_r; reflexivity.
    + exists [mkRep [p] (time s) None]. apply Base; auto.
Qed.

Lemma check_env_loop_ok p l : forall s s', rfold (check_env1 p) s l = Ok s' ->
  exists new, crel s s' [] (map (fun i => (p, i, time s)) l) new.
Proof.
  induction l as [|i r IH]; cbn [rfold map]; intros s s' H.
  - injection H as <-. exists []. apply crel_refl.
  - destruct (check_env1 p s i) as [s1|] eqn:E; [|discriminate].
    apply check_env1_ok in E as [n1 C1]. apply IH in H as [n2 C2].
    exists (n1 ++ n2). pose proof (crel_trans _ _ _ _ _ _ _ _ _ C1 C2) as C.
    assert (T : time s1 = time s) by (apply (cr_time _ _ _ _ _ C1)). rewrite T in C. exact C.
Qed.

Lemma check_env_ok s s' : NoDup (akeys (c_players (cx s))) -> check_env s = Ok s' ->
  exists new, crel s s' []
    (flat_map (fun p => map (fun i => (p, i, time s)) (env_candidates s p)) (akeys (c_players (cx s)))) new.
Proof.
  intros N H. unfold check_env in H.
  pose (Q := fun pre x => exists new, crel s x []
    (flat_map (fun p => map (fun i => (p, i, time s)) (env_candidates s p)) pre) new).
  change (Q ([] ++ akeys (c_players (cx s))) s').
  eapply rfold_inv_nd; [| |intros|exact H].
  - exists []. apply crel_refl.
  - exact N.
  - destruct H0 as [n1 C1]. unfold check_env_player in H3.
    destruct (dgetE (c_models (cx s0)) x) as [m|] eqn:Em; [|discriminate]. apply agetE_Ok in Em.
    apply check_env_loop_ok in H3 as [n2 C2].
    exists (n1 ++ n2). rewrite flat_map_app. cbn [flat_map]. rewrite app_nil_r.
    assert (T : time s0 = time s) by (apply (cr_time _ _ _ _ _ C1)). rewrite T in C2.
    assert (Mx : model_of s x = Some m).
    { rewrite <- Em. symmetry. apply (cr_untouched _ _ _ _ _ C1).
      - intros a b t [].
      - intros i t Hi. apply in_flat_map in Hi as (y & Hy & Hi). apply in_map_iff in Hi as (j & [= E1 E2 E3] & _). subst y. contradiction. }
    unfold env_candidates at 2. rewrite Mx. rewrite <- (cr_cfg _ _ _ _ _ C1).
    exact (crel_trans _ _ _ _ _ _ _ _ _ C1 C2).
Qed.

Lemma check_pair_ok s p q s' : p <> q -> check_pair s (p, q) = Ok s' ->
  exists new, crel s s' (if touches s p q then [(p, q, time s)] else []) [] new.
Proof.
  unfold check_pair. intros Npq H.
  destruct (dgetE (c_models (cx s)) p) as [a|] eqn:Ea; [|discriminate]. apply agetE_Ok in Ea.
  destruct (dgetE (c_models (cx s)) q) as [b|] eqn:Eb; [|discriminate]. apply agetE_Ok in Eb.
  unfold touches, model_of. rewrite Ea, Eb.
  destruct (intersects W (footprint W a) (footprint W b)) eqn:Ei.
  2:{ injection H as <-. exists []. apply crel_refl. }
  destruct (resolve W (g_scen (c_cfg (cx s))) p q (time s) a b) as [[a' b'] out] eqn:Er. cbv zeta in H.
  set (s1 := mkSt (set_models (cx s) (dset (dset (c_models (cx s)) p a') q b')) (sm s) (EPair p q (time s) out :: ev s)) in *.
  assert (Kp : In p (akeys (c_models (cx s)))) by (eapply dget_Some_In; exact Ea).
  assert (Kq : In q (akeys (c_models (cx s)))) by (eapply dget_Some_In; exact Eb).
  assert (Base : forall new c' f', expected_reports [EPair p q (time s) out] = new ->
    (reports_stamped W -> Forall (fun r => r_time r = time s) new) ->
    (reports_stamped W -> f' = match new with [] => c_first (cx s) | _ => earlier (time s) (c_first (cx s)) end) ->
    c' = c_reports (cx s) ++ new ->
    crel s (upd_cx s1 (set_reports (cx s1) c' f')) [(p, q, time s)] [] new).
  { intros new c' f' E1 E2 E3 ->. unfold s1. constructor; cbn; auto.
    - rewrite !keys_dset; [reflexivity|exact Kp|rewrite keys_dset; assumption].
    - intro r. rewrite asks_of_cons. apply app_nil_r.
    - intro r. rewrite moves_of_cons. apply app_nil_r.
    - rewrite leaves_of_cons. apply app_nil_r.
    - apply pairs_of_cons.
    - rewrite envs_of_cons. reflexivity.
    - rewrite expected_reports_cons. rewrite E1. reflexivity.
    - intros r H1 _. unfold model_of; cbn. destruct (H1 p q (time s)) as [? ?]; [left; reflexivity|].
      rewrite !dget_dset_other by congruence. reflexivity.
    - intros [K _] r. unfold model_of; cbn. specialize (K (g_scen (c_cfg (cx s))) p q (time s) a b a' b').
      rewrite Er in K. destruct K as [K1 K2]; [reflexivity|].
      rewrite dget_dset. destruct (Nat.eqb_spec q r) as [<-|].
      + cbn. rewrite Eb. cbn. f_equal. exact K2.
      + rewrite dget_dset. destruct (Nat.eqb_spec p r) as [<-|]; [|reflexivity]. cbn. rewrite Ea. cbn. f_equal. exact K1. }
  assert (Same : upd_cx s1 (set_reports (cx s1) (c_reports (cx s)) (c_first (cx s))) = s1) by reflexivity.
  destruct out as [[r|]|e].
  - injection H as <-. exists [r]. assert (K0 : reports_stamped W -> r_time r = time s).
    { intros [K _]. apply (K (g_scen (c_cfg (cx s))) p q (time s) a b). rewrite Er. reflexivity. }
    apply Base; auto. intro K. cbn. rewrite (K0 K). reflexivity.
  - injection H as <-. exists []. rewrite <- Same. apply Base; auto. rewrite app_nil_r; reflexivity.
  - destruct e; try discriminate. injection H as <-. exists [mkRep [p; q] (time s) None]. apply Base; auto.
Qed.

Lemma touches_foot s s' : (forall q, option_map (footprint W) (model_of s' q) = option_map (footprint W) (model_of s q)) ->
  forall p q, touches s' p q = touches s p q.
Proof.
  intros H p q. unfold touches. pose proof (H p) as Hp. pose proof (H q) as Hq.
  destruct (model_of s' p), (model_of s p); cbn in Hp; try discriminate; [|reflexivity].
  destruct (model_of s' q), (model_of s q); cbn in Hq; try discriminate; [|reflexivity]. congruence.
Qed.

(** The pairs resolved, whatever resolution does to the footprints: a sublist of
    the combinations, and the touching ones if footprints are kept. *)
Lemma check_pairs_ok l : (forall p q, In (p, q) l -> p <> q) -> forall s s', rfold check_pair s l = Ok s' ->
  exists np new, crel s s' (map (fun pq => (fst pq, snd pq, time s)) np) [] new /\
    (forall pq, In pq np -> In pq l) /\
    (resolution_keeps_footprint W -> np = filter (fun pq => touches s (fst pq) (snd pq)) l).
Proof.
  induction l as [|[p q] r IH]; intros Hd s s' H.
  - injection H as <-. exists [], []. split; [apply crel_refl|]. split; [auto|reflexivity].
  - cbn [rfold] in H. destruct (check_pair s (p, q)) as [s1|] eqn:E; [|discriminate].
    apply check_pair_ok in E as [n1 C1]; [|apply Hd; left; reflexivity].
    apply IH in H as (np & n2 & C2 & S2 & K2); [|intros; apply Hd; right; assumption].
    assert (T : time s1 = time s) by (apply (cr_time _ _ _ _ _ C1)). rewrite T in C2.
    exists ((if touches s p q then [(p, q)] else []) ++ np), (n1 ++ n2). split; [|split].
    + pose proof (crel_trans _ _ _ _ _ _ _ _ _ C1 C2) as C. rewrite map_app. destruct (touches s p q); exact C.
    + intros pq Hi. apply in_app_iff in Hi as [Hi|Hi]; [|right; apply S2; exact Hi].
      destruct (touches s p q); [|contradiction]. destruct Hi as [<-|[]]. left; reflexivity.
    + intro K. rewrite (K2 K). cbn [filter fst snd].
      pose proof (touches_foot s s1 (cr_foot _ _ _ _ _ C1 K)) as Tf.
      rewrite (filter_ext _ (fun pq => touches s (fst pq) (snd pq))); [|intros [a b]; cbn; apply Tf].
      destruct (touches s p q); reflexivity.
Qed.

Lemma combinations2_In {B} (l : list B) x y : In (x, y) (combinations2 l) <->
  exists i j, (i < j)%nat /\ nth_error l i = Some x /\ nth_error l j = Some y.
Proof.
  induction l as [|z r IH]; cbn.
  - split; [contradiction|]. intros (i & j & _ & H & _). destruct i; discriminate.
  - rewrite in_app_iff, in_map_iff, IH. split.
    + intros [(w & [= -> ->] & H)|(i & j & H1 & H2 & H3)].
      * apply In_nth_error in H as [j Hj]. exists O, (S j). repeat split; [lia|exact Hj].
      * exists (S i), (S j). repeat split; [lia|exact H2|exact H3].
    + intros (i & j & H1 & H2 & H3). destruct i as [|i], j as [|j]; try lia; cbn in *.
      * left. injection H2 as ->. exists y. split; [reflexivity|]. eapply nth_error_In; exact H3.
      * right. exists i, j. repeat split; [lia|exact H2|exact H3].
Qed.
Lemma combinations2_neq {B} (l : list B) : NoDup l -> forall x y, In (x, y) (combinations2 l) -> x <> y.
Proof.
  intros N x y H. apply combinations2_In in H as (i & j & H1 & H2 & H3). intros ->.
  assert (i = j); [|lia]. eapply NoDup_nth_error; [exact N| |congruence].
  apply nth_error_Some. congruence.
Qed.
Lemma combinations2_NoDup {B} (l : list B) : NoDup l -> NoDup (combinations2 l).
Proof.
  induction l as [|z r IH]; cbn; intro N; [constructor|]. inversion N as [|? ? N1 N2]; subst.
  assert (D : NoDup (map (pair z) r)).
  { clear IH N N1. induction N2; cbn; constructor; [|assumption]. rewrite in_map_iff. intros (w & [= ->] & ?). contradiction. }
  assert (Dj : forall e, In e (map (pair z) r) -> ~ In e (combinations2 r)).
  { intros [a b] H1 H2. apply in_map_iff in H1 as (w & [= <- <-] & _). apply combinations2_In in H2 as (i & j & _ & H2 & _).
    apply N1. eapply nth_error_In; exact H2. }
  specialize (IH N2). revert D Dj. generalize (map (pair z) r). induction l as [|e l IHl]; cbn; intros D Dj; [exact IH|].
  inversion D; subst. constructor.
  - rewrite in_app_iff. intros [?|?]; [contradiction|]. eapply Dj; [left; reflexivity|assumption].
  - apply IHl; [assumption|]. intros e' He'. apply Dj. right; exact He'.
Qed.

Lemma check_players_ok s s' : NoDup (akeys (c_players (cx s))) -> check_players s = Ok s' ->
  exists np new, crel s s' (map (fun pq => (fst pq, snd pq, time s)) np) [] new /\
    (forall pq, In pq np -> In pq (combinations2 (akeys (c_players (cx s))))) /\
    (resolution_keeps_footprint W -> np = filter (fun pq => touches s (fst pq) (snd pq)) (combinations2 (akeys (c_players (cx s))))).
Proof.
  intros N H. apply check_pairs_ok; [|exact H]. apply combinations2_neq; exact N.
Qed.
End Coll.
