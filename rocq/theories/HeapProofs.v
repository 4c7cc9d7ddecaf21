(** Invariants of the program with objects and references. *)
From Coq Require Import QArith Qcanon List Bool Arith Lia.
From Verif Require Import Base Num SeqModel SimulatorModel DictLemmas HeapModel HeapSpec.
Import ListNotations.
Open Scope nat_scope.

Lemma put_same {V} (h : nat -> V) r v : put h r v r = v.
Proof. unfold put. rewrite Nat.eqb_refl. reflexivity. Qed.
Lemma put_other {V} (h : nat -> V) r v r' : r' <> r -> put h r v r' = h r'.
Proof. intro N. unfold put. destruct (Nat.eqb_spec r' r); [contradiction|reflexivity]. Qed.

Lemma b_add_Ok {V} (b b' : builder V) t v : b_add b t v = Ok b' -> b' = mkB (b_ts b ++ [t]) (b_vs b ++ [v]).
Proof.
  unfold b_add. destruct (rev (b_ts b)) as [|q ?].
  - intro E; injection E as <-; reflexivity.
  - destruct (qleb t q); [discriminate|]. intro E; injection E as <-; reflexivity.
Qed.

Section Inv.
Context {H : hworld}.
Notation X := (h_X H). Notation U := (h_U H). Notation B := (h_B H).
Notation mem_t := (memory X U).
Notation models_t := (list (player * (nat * B))).
Notation logs_t := (list (player * hlogger H)).

Record inv (m0 : mem_t) (upd : list player) (m : mem_t) (ms : models_t) (ls : logs_t) : Prop := {
  i_nx : m_nx m0 <= m_nx m;
  i_models : forall p r b, dget ms p = Some (r, b) -> r < m_nx m /\ ~ In r (m_seen m);
  i_upd : forall p r b, In p upd -> dget ms p = Some (r, b) -> m_nx m0 <= r;
  i_alias : forall p q r b b', p <> q -> dget ms p = Some (r, b) -> dget ms q = Some (r, b') -> ~ In p upd;
  i_seen : forall r, In r (m_seen m) -> r < m_nx m;
  i_logs : forall p l, dget ls p = Some l -> length (b_ts (k_states l)) = length (b_vs (k_states l)) /\
     forall r, In r (b_vs (k_states l)) -> r < m_nx m /\ ~ In r (m_seen m) /\ forall q b, dget ms q <> Some (r, b);
  i_old : forall r, In r (m_seen m) -> r < m_nx m0 -> In r (m_seen m0);
  i_frozen : forall r, r < m_nx m0 -> ~ In r (m_seen m0) -> m_x m r = m_x m0 r }.

(** What every later state keeps of the logs of states. *)
Definition keeps (m : mem_t) (ls : logs_t) (m' : mem_t) (ls' : logs_t) : Prop :=
  forall p l, dget ls p = Some l -> exists l', dget ls' p = Some l' /\
    (exists ts vs, length ts = length vs /\ b_ts (k_states l') = b_ts (k_states l) ++ ts /\
       b_vs (k_states l') = b_vs (k_states l) ++ vs) /\
    forall r, In r (b_vs (k_states l)) -> m_x m' r = m_x m r.

Lemma keeps_refl m ls : keeps m ls m ls.
Proof.
  intros p l E. exists l. split; [exact E|]. split; [|reflexivity].
  exists [], []. rewrite !app_nil_r. repeat split; reflexivity.
Qed.
Lemma keeps_trans m ls m1 ls1 m2 ls2 : keeps m ls m1 ls1 -> keeps m1 ls1 m2 ls2 -> keeps m ls m2 ls2.
Proof.
  intros K1 K2 p l E. destruct (K1 p l E) as (l1 & E1 & (ts & vs & L & Ht & Hv) & R1).
  destruct (K2 p l1 E1) as (l2 & E2 & (ts2 & vs2 & L2 & Ht2 & Hv2) & R2).
  exists l2. split; [exact E2|]. split.
  - exists (ts ++ ts2), (vs ++ vs2). rewrite !app_length, L, L2, Ht2, Hv2, Ht, Hv, !app_assoc. repeat split; reflexivity.
  - intros r Hr. rewrite <- (R1 r Hr). apply R2. rewrite Hv. apply in_or_app; left; exact Hr.
Qed.

(** Same logged objects, contents unchanged where logged. *)
Lemma keeps_mem m m' (ls : logs_t) :
  (forall p l r, dget ls p = Some l -> In r (b_vs (k_states l)) -> m_x m' r = m_x m r) -> keeps m ls m' ls.
Proof.
  intros R p l E. exists l. split; [exact E|]. split; [|intros r Hr; exact (R p l r E Hr)].
  exists [], []. rewrite !app_nil_r. repeat split; reflexivity.
Qed.

(** A new state object. *)
Lemma inv_new_x m0 upd m ms ls x :
  inv m0 upd m ms ls ->
  inv m0 upd (fst (new_x m x)) ms ls /\ keeps m ls (fst (new_x m x)) ls /\
  m_x (fst (new_x m x)) (m_nx m) = x /\ (forall r, r < m_nx m -> m_x (fst (new_x m x)) r = m_x m r).
Proof.
  intro V. unfold new_x; cbn [fst].
  assert (P : forall r, r < m_nx m -> put (m_x m) (m_nx m) x r = m_x m r) by (intros r L; apply put_other; lia).
  split; [|split; [|split]].
  - destruct V as [V1 V2 V3 V4 V5 V6 V7 V8]. constructor; cbn [m_nx m_x m_seen].
    + lia.
    + intros p r b E. destruct (V2 p r b E). split; [lia|assumption].
    + exact V3.
    + exact V4.
    + intros r I. specialize (V5 r I). lia.
    + intros p l E. destruct (V6 p l E) as [L V]. split; [exact L|]. intros r I. destruct (V r I) as (? & ? & ?).
      repeat split; [lia|assumption|assumption].
    + exact V7.
    + intros r L N. rewrite P by lia. apply V8; assumption.
  - apply keeps_mem. intros p l r E I. cbn [m_x]. apply P. apply (proj2 (i_logs _ _ _ _ _ V p l E) r I).
  - cbn [m_x]. apply put_same.
  - exact P.
Qed.

(** The fresh copy is shown to the agents. *)
Lemma inv_show m0 upd m ms ls x :
  inv m0 upd m ms ls ->
  inv m0 upd (show_x (fst (new_x m x)) (m_nx m)) ms ls /\ keeps m ls (show_x (fst (new_x m x)) (m_nx m)) ls.
Proof.
  intro V. destruct (inv_new_x _ _ _ _ _ x V) as (V' & K & _ & _).
  split.
  - destruct V as [V1 V2 V3 V4 V5 V6 V7 V8], V' as [W1 W2 W3 W4 W5 W6 W7 W8].
    unfold show_x. constructor; cbn [m_nx m_x m_seen] in *.
    + exact W1.
    + intros p r b E. destruct (V2 p r b E) as [L N]. split; [cbn; lia|]. intros [e|e]; [lia|exact (N e)].
    + exact V3.
    + exact V4.
    + intros r [<-|I]; [cbn; lia|specialize (V5 r I); cbn; lia].
    + intros p l E. destruct (V6 p l E) as [L V]. split; [exact L|]. intros r I. destruct (V r I) as (? & ? & ?).
      repeat split; [cbn; lia| |assumption]. intros [e|e]; [lia|contradiction].
    + intros r [<-|I] L; [lia|apply V7; assumption].
    + exact W8.
  - exact K.
Qed.

(** A new or written commands object. *)
Lemma inv_u m0 upd m ms ls h n :
  inv m0 upd m ms ls -> inv m0 upd (mkMem (m_x m) (m_nx m) h n (m_seen m)) ms ls.
Proof. intros [V1 V2 V3 V4 V5 V6 V7 V8]. constructor; assumption. Qed.

Lemma exec1_spec (m : mem_t) i :
  m_nx (exec1 m i) = m_nx m /\ m_seen (exec1 m i) = m_seen m /\
  (forall r, ~ In r (m_seen m) -> m_x (exec1 m i) r = m_x m r).
Proof.
  destruct i as [u|r u|r x]; cbn [exec1].
  - repeat split; reflexivity.
  - destruct (Nat.ltb r (m_nu m)); repeat split; reflexivity.
  - destruct (existsb (Nat.eqb r) (m_seen m)) eqn:E; [|repeat split; reflexivity].
    apply existsb_exists in E as (r1 & I & E1). apply Nat.eqb_eq in E1; subst r1.
    unfold write_x; cbn. repeat split. intros r' N. apply put_other. intros ->; contradiction.
Qed.
Lemma exec_spec (l : list (instr X U)) : forall m : mem_t,
  m_nx (exec m l) = m_nx m /\ m_seen (exec m l) = m_seen m /\
  (forall r, ~ In r (m_seen m) -> m_x (exec m l) r = m_x m r).
Proof.
  unfold exec. induction l as [|i l IH]; intro m; cbn [fold_left]; [repeat split; reflexivity|].
  destruct (exec1_spec m i) as (A1 & A2 & A3). destruct (IH (exec1 m i)) as (B1 & B2 & B3).
  rewrite B1, B2, A1, A2. repeat split. intros r N. rewrite B3 by (rewrite A2; exact N). apply A3; exact N.
Qed.
Lemma inv_exec m0 upd m ms ls is :
  inv m0 upd m ms ls -> inv m0 upd (exec m is) ms ls /\ keeps m ls (exec m is) ls.
Proof.
  intro V. destruct (exec_spec is m) as (A1 & A2 & A3). split.
  - destruct V as [V1 V2 V3 V4 V5 V6 V7 V8]. constructor; rewrite ?A1, ?A2; try assumption.
    intros r L N. rewrite A3; [apply V8; assumption|]. intro I. apply N. apply V7; assumption.
  - apply keeps_mem. intros p l r E I. apply A3. apply (proj2 (i_logs _ _ _ _ _ V p l E) r I).
Qed.

(** Logging a fresh object as state of [p]. *)
Lemma inv_log m0 upd m ms ls p l b' t r :
  inv m0 upd m ms ls -> dget ls p = Some l -> b' = mkB (b_ts (k_states l) ++ [t]) (b_vs (k_states l) ++ [r]) ->
  r < m_nx m -> ~ In r (m_seen m) -> (forall q b, dget ms q <> Some (r, b)) ->
  inv m0 upd m ms (dset ls p (mkK b' (k_commands l) (k_extra l) (k_info l))) /\
  keeps m ls m (dset ls p (mkK b' (k_commands l) (k_extra l) (k_info l))).
Proof.
  intros V E -> L N Q. split.
  - destruct V as [V1 V2 V3 V4 V5 V6 V7 V8]. constructor; try assumption.
    intros q lq. rewrite dget_dset. destruct (Nat.eqb_spec p q) as [->|Npq]; [|apply V6].
    intro Eq; injection Eq as <-. cbn [k_states b_ts b_vs]. destruct (V6 q l E) as [Ll Vl].
    split; [rewrite !app_length, Ll; reflexivity|].
    intros r1 I. apply in_app_or in I as [I|[<-|[]]]; [exact (Vl r1 I)|repeat split; assumption].
  - intros q lq Eq. rewrite dget_dset. destruct (Nat.eqb_spec p q) as [->|Npq].
    + rewrite E in Eq; injection Eq as <-. eexists; split; [reflexivity|]. cbn [k_states b_ts b_vs].
      split; [exists [t], [r]; repeat split; reflexivity|reflexivity].
    + exists lq. split; [exact Eq|]. split; [|reflexivity]. exists [], []. rewrite !app_nil_r. repeat split; reflexivity.
Qed.
(** Logging something else. *)
Lemma inv_log_other m0 upd m ms ls p l l' :
  inv m0 upd m ms ls -> dget ls p = Some l -> k_states l' = k_states l ->
  inv m0 upd m ms (dset ls p l') /\ keeps m ls m (dset ls p l').
Proof.
  intros V E S. split.
  - destruct V as [V1 V2 V3 V4 V5 V6 V7 V8]. constructor; try assumption.
    intros q lq. rewrite dget_dset. destruct (Nat.eqb_spec p q) as [->|Npq]; [|apply V6].
    intro Eq; injection Eq as <-. rewrite S. exact (V6 q l E).
  - intros q lq Eq. rewrite dget_dset. destruct (Nat.eqb_spec p q) as [->|Npq].
    + rewrite E in Eq; injection Eq as <-. eexists; split; [reflexivity|]. rewrite S.
      split; [exists [], []; rewrite !app_nil_r; repeat split; reflexivity|reflexivity].
    + exists lq. split; [exact Eq|]. split; [|reflexivity]. exists [], []. rewrite !app_nil_r. repeat split; reflexivity.
Qed.

(** The model of [p] gets a new state object. *)
Lemma inv_rebind m0 upd m ms ls p x b :
  inv m0 upd m ms ls -> (exists v, dget ms p = Some v) ->
  inv m0 (p :: upd) (fst (new_x m x)) (dset ms p (m_nx m, b)) ls /\ keeps m ls (fst (new_x m x)) ls.
Proof.
  intros V _. destruct (inv_new_x _ _ _ _ _ x V) as (V' & K & _ & _). split; [|exact K].
  destruct V as [V1 V2 V3 V4 V5 V6 V7 V8], V' as [W1 W2 W3 W4 W5 W6 W7 W8].
  assert (OLD : forall q r b', dget ms q = Some (r, b') -> r < m_nx m) by (intros q r b' E; apply (V2 q r b' E)).
  constructor; try assumption.
  - intros q r b'. rewrite dget_dset. destruct (Nat.eqb_spec p q) as [->|Npq]; [|apply W2].
    intro E; injection E as <- <-. cbn. split; [lia|]. intro I. specialize (V5 _ I). lia.
  - intros q r b' I. rewrite dget_dset. destruct (Nat.eqb_spec p q) as [->|Npq].
    + intro E; injection E as <- <-. exact V1.
    + destruct I as [e|I]; [contradiction|]. apply V3; exact I.
  - intros q q' r b1 b2 Nq. rewrite !dget_dset.
    destruct (Nat.eqb_spec p q) as [Epq|Npq]; destruct (Nat.eqb_spec p q') as [Epq'|Npq'].
    + exfalso; congruence.
    + intros E1 E2. injection E1 as <- <-. apply OLD in E2. lia.
    + intros E1 E2. injection E2 as <- <-. apply OLD in E1. lia.
    + intros E1 E2 [e|I]; [contradiction|]. exact (V4 q q' r b1 b2 Nq E1 E2 I).
  - intros q l E. destruct (W6 q l E) as [L V]. split; [exact L|]. intros r I. destruct (V r I) as (L1 & L2 & L3).
    repeat split; [assumption|assumption|]. intros q' b'. rewrite dget_dset. destruct (Nat.eqb_spec p q') as [->|Npq]; [|apply L3].
    intro E1; injection E1 as E1 _. destruct (V6 q l E) as [_ V6']. destruct (V6' r I). lia.
Qed.

(** [set_velocity] on an updated model; the rest of the model may change. *)
Lemma inv_write m0 upd m ms ls p r b x b' :
  inv m0 upd m ms ls -> dget ms p = Some (r, b) -> In p upd ->
  inv m0 upd (write_x m r x) (dset ms p (r, b')) ls /\ keeps m ls (write_x m r x) ls.
Proof.
  intros V E I. pose proof (i_upd _ _ _ _ _ V p r b I E) as G. split.
  - destruct V as [V1 V2 V3 V4 V5 V6 V7 V8].
    assert (SAME : forall q rq bq, dget (dset ms p (r, b')) q = Some (rq, bq) -> exists bq', dget ms q = Some (rq, bq')).
    { intros q rq bq. rewrite dget_dset. destruct (Nat.eqb_spec p q) as [->|Npq]; [|eauto].
      intro Eq; injection Eq as <- <-. eauto. }
    constructor; cbn [write_x m_nx m_seen m_x]; try assumption.
    + intros q rq bq Eq. apply SAME in Eq as [bq' Eq]. exact (V2 _ _ _ Eq).
    + intros q rq bq Iq Eq. apply SAME in Eq as [bq' Eq]. exact (V3 _ _ _ Iq Eq).
    + intros q q' r1 b1 b2 Nq E1 E2. apply SAME in E1 as [? E1]. apply SAME in E2 as [? E2]. exact (V4 _ _ _ _ _ Nq E1 E2).
    + intros q l El. destruct (V6 q l El) as [L V]. split; [exact L|]. intros r1 I1. destruct (V r1 I1) as (L1 & L2 & L3).
      repeat split; [assumption|assumption|]. intros q' bq Eq. apply SAME in Eq as [bq' Eq]. exact (L3 _ _ Eq).
    + intros r1 L N. rewrite put_other by lia. apply V8; assumption.
  - apply keeps_mem. intros q l r1 El I1. cbn. apply put_other. intros ->.
    exact (proj2 (proj2 (proj2 (i_logs _ _ _ _ _ V q l El) r I1)) p b E).
Qed.

Lemma inv_weaken m0 upd upd' m ms ls : (forall p, In p upd' -> In p upd) -> inv m0 upd m ms ls -> inv m0 upd' m ms ls.
Proof.
  intros S [V1 V2 V3 V4 V5 V6 V7 V8]. constructor; try assumption.
  - intros p r b I. apply V3. apply S; exact I.
  - intros p q r b b' N E1 E2 I. exact (V4 p q r b b' N E1 E2 (S _ I)).
Qed.
End Inv.
