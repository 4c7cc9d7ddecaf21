(** Properties of the observation filters. *)
From Coq Require Import QArith Qcanon ZArith List Bool Arith Lia Permutation Sorted.
From Verif Require Import Base Num SeqModel SeqProofs DictLemmas SimulatorModel PerceptionModel PerceptionSpec PerceptionProofs PerceptionExamples.
Import ListNotations.
Open Scope Qc_scope.
(* BODY *)

(** ** C31 *)

(** Same time; the observer's own entry unchanged; every player shown was in
    the input with the same state (and the same occupancy, unless that made the
    intersection test raise and was repaired); nobody is invented or listed twice. *)
Theorem C31_only_removes : forall (X F P Z_ : Type) (g : geo X F P Z_) st sc o pov st' out,
  proper o -> fov_sense g st sc o pov = Ok (st', out) ->
  o_time out = o_time o /\ sees out pov = sees o pov /\ sees o pov <> None /\ proper out /\
  forall p x occ, sees out p = Some (x, occ) ->
    exists occ0, sees o p = Some (x, occ0) /\ (occ = occ0 \/ (valid g occ0 = false /\ repair g occ0 = Ok occ)).
Proof.
  intros X F P Z_ g st sc o pov st' out N H.
  destruct (fov_sense_spec g st sc o pov st' out N H)
    as (me & z & static & dyn & region & A1 & _ & _ & _ & _ & _ & _ & A2 & A3 & A4 & A5 & A6).
  split; [exact A2|]. split; [congruence|]. split; [congruence|]. split; [exact A4|].
  intros p x occ Hp. destruct (Nat.eq_dec p pov) as [->|Np].
  { exists occ. split; [congruence|left; reflexivity]. }
  destruct (sees o p) as [[x0 occ0]|] eqn:E; [|rewrite (A6 p E) in Hp; discriminate].
  destruct (A5 p _ Np E) as (r & _ & o' & b & V & G). rewrite G in Hp. destruct b; [|discriminate].
  cbn [fst snd] in *. injection Hp as -> ->. exists occ0. split; [reflexivity|].
  destruct V as [[_ ->]|(e & r' & _ & _ & V & _)]; [left; reflexivity|].
  unfold repaired in V. destruct (valid g occ0) eqn:Ev; [left; exact V|right; auto].
Qed.

Example C31_only_removes_ex :
  exists st' out, fov_sense line fov_new [] row 0%nat = Ok (st', out) /\ proper row /\ sees out 2%nat = None /\ sees out 1%nat = Some (at_ 3 4).
Proof.
  eexists; eexists. split; [vm_compute; reflexivity|]. split; [|split; vm_compute; reflexivity].
  unfold proper; cbn. repeat constructor; cbn; intuition congruence.
Qed.

(** Without geometry exceptions: with a filter that has only been used in this
    scenario, another player is shown exactly when its occupancy intersects the
    region the sensor sees from the observer's pose, given all static obstacles
    and all other players as obstacles. *)
Theorem C31_shows_exactly_the_visible : forall (X F P Z_ : Type) (g : geo X F P Z_) st sc o pov st' out,
  (forall a b, exists t, hits g a b = Ok t) ->
  used_with g sc st -> proper o -> fov_sense g st sc o pov = Ok (st', out) ->
  exists me z polys region, sees o pov = Some me /\ pose_of g (fst me) = Ok z /\
    polys_of g (sc ++ map (fun e => snd (snd e)) (filter (fun e => negb (Nat.eqb (fst e) pov)) (o_players o))) polys /\
    fov g z polys = Ok region /\
    forall p x occ, p <> pov -> sees o p = Some (x, occ) ->
      (hits g region occ = Ok true -> sees out p = Some (x, occ)) /\
      (hits g region occ = Ok false -> sees out p = None).
Proof.
  intros X F P Z_ g st sc o pov st' out T U N H.
  destruct (fov_sense_spec g st sc o pov st' out N H)
    as (me & z & static & dyn & region & A1 & A2 & A3 & A4 & _ & A5 & A6 & _ & _ & _ & A7 & _).
  assert (St : polys_of g sc static).
  { destruct (cache_ok g sc st U) as [E|E]; [apply A3; exact E|].
    destruct (fv_cache st) eqn:Ec; [apply A3; reflexivity|]. rewrite A4 by discriminate. exact E. }
  destruct St as (l1 & F1 & P1), A5 as (l2 & F2 & P2).
  exists me, z, (static ++ dyn), region. split; [exact A1|]. split; [exact A2|]. split; [|split; [exact A6|]].
  - exists (l1 ++ l2). split; [apply Forall2_app; assumption|]. rewrite concat_app. apply Permutation_app; assumption.
  - intros p x occ Np E. destruct (A7 p _ Np E) as (r & R & o' & b & V & G). cbn [fst snd] in *.
    destruct V as [[V ->]|(e & r' & C & _)]; [|destruct (T r occ) as [t Ht]; congruence].
    assert (r = region) as ->.
    { destruct R as [|r1 r2 o1 e R1 Hh]; [reflexivity|]. destruct (T r1 o1) as [t Ht]. congruence. }
    split; intro Hh; rewrite Hh in V; injection V as <-; exact G.
Qed.

Example C31_shows_ex : exists st' out,
  used_with line wall fov_new /\ fov_sense line fov_new wall row 0%nat = Ok (st', out) /\ sees out 1%nat = None /\ sees out 0%nat = Some (at_ 0 1).
Proof. eexists; eexists. split; [constructor|]. split; [vm_compute; reflexivity|]. split; vm_compute; reflexivity. Qed.

(** In general: the test may raise, the region and the occupancy are then
    repaired, and the player is shown exactly when the repaired test succeeds. *)
Theorem C31_visible_after_repair : forall (X F P Z_ : Type) (g : geo X F P Z_) st sc o pov st' out p x occ,
  proper o -> fov_sense g st sc o pov = Ok (st', out) -> p <> pov -> sees o p = Some (x, occ) ->
  exists z polys region r, (exists me, sees o pov = Some me /\ pose_of g (fst me) = Ok z) /\
    fov g z polys = Ok region /\ region_of g region r /\
    exists occ' b, visible g r occ occ' b /\ sees out p = if b then Some (x, occ') else None.
Proof.
  intros X F P Z_ g st sc o pov st' out p x occ N H Np E.
  destruct (fov_sense_spec g st sc o pov st' out N H)
    as (me & z & static & dyn & region & A1 & A2 & _ & _ & _ & _ & A6 & _ & _ & _ & A7 & _).
  destruct (A7 p _ Np E) as (r & R & o' & b & V & G). exists z, (static ++ dyn), region, r.
  split; [exists me; auto|]. split; [exact A6|]. split; [exact R|]. exists o', b. auto.
Qed.

Example C31_repair_ex : exists st' out,
  fov_sense line fov_new [] row_bad 0%nat = Ok (st', out) /\ sees out 1%nat = Some ((qz 3, 0), (qz 3, qz 4)).
Proof. eexists; eexists. split; vm_compute; reflexivity. Qed.

(** An observer that is not in the observation is an error. *)
Theorem C31_observer_must_be_present : forall (X F P Z_ : Type) (g : geo X F P Z_) st sc o pov,
  sees o pov = None -> fov_sense g st sc o pov = Err PyKeyError.
Proof. intros X F P Z_ g st sc o pov H. unfold fov_sense, agetE. unfold sees in H. rewrite H. reflexivity. Qed.

Example C31_absent_ex : sees row 9%nat = None.
Proof. reflexivity. Qed.

(** The documented purpose: which players are seen depends on the scenario at
    hand.  A filter that was used in another scenario keeps that scenario's
    obstacles: here a wall that no longer exists still hides player 1. *)
Theorem C31_scenario_change_refuted : exists (g : geo (Qc * Qc) (Qc * Qc) (Qc * Qc) Qc) old sc st o pov st1 out1 st2 out2,
  used_with g old st /\ proper o /\
  fov_sense g st sc o pov = Ok (st1, out1) /\ fov_sense g fov_new sc o pov = Ok (st2, out2) /\
  sees out1 1%nat = None /\ sees out2 1%nat <> None.
Proof.
  exists line, wall, [], (mkFov wall (Some 0)), row, 0%nat. eexists; eexists; eexists; eexists.
  split; [|split; [|split; [vm_compute; reflexivity|split; [vm_compute; reflexivity|split; [vm_compute; reflexivity|vm_compute; discriminate]]]]].
  - eapply (uw_sense _ _ fov_new (only0 0) 0%nat); [constructor|]. vm_compute. reflexivity.
  - unfold proper; cbn. repeat constructor; cbn; intuition congruence.
Qed.

(** ** C32 *)

(** Every answer is a recorded observation at most [L] old and never from the
    future, stamped with its recording time + L; it is the oldest such one. *)
Theorem C32_data_age : forall (X F S : Type) (inner : S -> list F -> simobs X F -> player -> result (S * simobs X F)) L s0 st past sc full pov st' out s' o,
  0 <= L -> fed inner L s0 st past -> inner (dl_inner st) sc full pov = Ok (s', o) -> in_order (past ++ [o]) ->
  delayed_sense inner L st sc full pov = Ok (st', out) ->
  exists r, In r (past ++ [o]) /\ o_players out = o_players r /\ o_time out = o_time r + L /\
    o_time o - L <= o_time r /\ o_time r <= o_time o /\
    (forall q, In q (past ++ [o]) -> o_time q < o_time r -> o_time q < o_time o - L).
Proof.
  intros X F S inner L s0 st past sc full pov st' out s' o HL Hf Hi Ho H.
  destruct (delayed_spec inner L s0 st past sc full pov s' o HL Hf Hi Ho) as (i & r & Hr & D & B1 & B2 & B3).
  rewrite D in H. injection H as <- <-. exists r. split; [eapply nth_error_In; exact Hr|].
  split; [reflexivity|]. split; [reflexivity|]. split; [exact B1|]. split; [exact B2|].
  intros q Hq Lq. apply In_nth_error in Hq as [j Hj]. apply (B3 j); [|exact Hj].
  destruct (Nat.lt_ge_cases j i) as [C|C]; [exact C|exfalso]. destruct (Nat.eq_dec i j) as [->|N]; [rewrite Hr in Hj; injection Hj as <-; exact (Qclt_not_eq _ _ Lq eq_refl)|].
  assert (o_time r <= o_time q); [|qlra].
  eapply (SS_nth _ i j); [exact Ho|lia|apply map_nth_error; exact Hr|apply map_nth_error; exact Hj].
Qed.

Example C32_fed_ex : exists st st' out, fed id_sense (qf 2 10) tt st (firstn 4 hist5) /\ in_order hist5 /\
  delayed_sense id_sense (qf 2 10) st [] (only0 (qn 4 * qf 1 10)) 0%nat = Ok (st', out) /\ o_time out = qf 4 10.
Proof.
  eexists; eexists; eexists. split; [|split; [|split; [|]]].
  - change (firstn 4 hist5) with (((([] ++ [only0 (qn 0 * qf 1 10)]) ++ [only0 (qn 1 * qf 1 10)]) ++ [only0 (qn 2 * qf 1 10)]) ++ [only0 (qn 3 * qf 1 10)]).
    eapply (fed_sense _ _ _ _ _ [] (only0 (qn 3 * qf 1 10)) 0%nat); [eapply (fed_sense _ _ _ _ _ [] (only0 (qn 2 * qf 1 10)) 0%nat); [eapply (fed_sense _ _ _ _ _ [] (only0 (qn 1 * qf 1 10)) 0%nat); [eapply (fed_sense _ _ _ _ _ [] (only0 (qn 0 * qf 1 10)) 0%nat); [apply fed_new|vm_compute; reflexivity|reflexivity]|vm_compute; reflexivity|reflexivity]|vm_compute; reflexivity|reflexivity]|vm_compute; reflexivity|reflexivity].
  - unfold in_order. cbn [hist5 map List.seq o_time only0]. repeat (constructor; [|repeat (constructor; [vm_compute; discriminate|]); constructor]); constructor.
  - vm_compute. reflexivity.
  - qcompute.
Qed.

(** If a sample exactly [L] old was recorded it is the one returned, and it is
    stamped with the current time. *)
Theorem C32_exact : forall (X F S : Type) (inner : S -> list F -> simobs X F -> player -> result (S * simobs X F)) L s0 st past sc full pov st' out s' o q,
  0 <= L -> fed inner L s0 st past -> inner (dl_inner st) sc full pov = Ok (s', o) ->
  StronglySorted Qclt (map o_time (past ++ [o])) ->
  delayed_sense inner L st sc full pov = Ok (st', out) ->
  In q (past ++ [o]) -> o_time q = o_time o - L -> out = mkObs (o_players q) (o_time o).
Proof.
  intros X F S inner L s0 st past sc full pov st' out s' o q HL Hf Hi Hs H Hq Eq.
  assert (Ho : in_order (past ++ [o])).
  { unfold in_order. induction Hs as [|a l Hs IH Fa]; constructor; [exact IH|].
    eapply Forall_impl; [|exact Fa]. intros b Hb. apply Qclt_le_weak. exact Hb. }
  destruct (delayed_spec inner L s0 st past sc full pov s' o HL Hf Hi Ho) as (i & r & Hr & D & B1 & B2 & B3).
  rewrite D in H. injection H as <- <-. apply In_nth_error in Hq as [j Hj].
  assert (r = q) as ->.
  { destruct (Nat.lt_trichotomy i j) as [C|[->|C]].
    - exfalso. assert (o_time r < o_time q); [|qlra].
      eapply Inc_nth; [exact Hs|exact C|apply map_nth_error; exact Hr|apply map_nth_error; exact Hj].
    - congruence.
    - exfalso. specialize (B3 j q C Hj). qlra. }
  unfold with_time. f_equal. rewrite Eq. ring.
Qed.

(** The filter answers whenever the wrapped filter does. *)
Theorem C32_always_answers : forall (X F S : Type) (inner : S -> list F -> simobs X F -> player -> result (S * simobs X F)) L s0 st past sc full pov s' o,
  0 <= L -> fed inner L s0 st past -> inner (dl_inner st) sc full pov = Ok (s', o) -> in_order (past ++ [o]) ->
  exists st' out, delayed_sense inner L st sc full pov = Ok (st', out) /\ fed inner L s0 st' (past ++ [o]).
Proof.
  intros X F S inner L s0 st past sc full pov s' o HL Hf Hi Ho.
  destruct (delayed_spec inner L s0 st past sc full pov s' o HL Hf Hi Ho) as (i & r & Hr & D & _).
  eexists; eexists. split; [exact D|]. eapply fed_sense; [exact Hf|exact D|exact Hi].
Qed.

(** A negative latency is accepted by the constructor but every query fails. *)
Theorem C32_negative_latency_fails : forall (X F S : Type) (inner : S -> list F -> simobs X F -> player -> result (S * simobs X F)) L s0 st past sc full pov s' o,
  L < 0 -> fed inner L s0 st past -> inner (dl_inner st) sc full pov = Ok (s', o) -> in_order (past ++ [o]) ->
  delayed_sense inner L st sc full pov = Err PyIndexError.
Proof. intros. eapply delayed_negative; eassumption. Qed.

Example C32_negative_ex : qz (-1) < 0 /\ fed id_sense (qz (-1)) tt (mkDelayed tt []) (@nil (simobs (Qc * Qc) (Qc * Qc))) /\ in_order ([] ++ [row]).
Proof. split; [vm_compute; reflexivity|]. split; [constructor|]. repeat constructor. Qed.

(** Whole histories: the outputs are the delayed inputs, in recording order. *)
Theorem C32_history : forall (X F S : Type) (inner : S -> list F -> simobs X F -> player -> result (S * simobs X F)) L s0 sc pov ins s' mids,
  0 <= L -> sense_all inner s0 sc pov ins = Ok (s', mids) -> in_order mids ->
  exists st' outs, sense_all (delayed_sense inner L) (mkDelayed s0 []) sc pov ins = Ok (st', outs) /\ delays L mids outs.
Proof. intros. eapply delays_run; eassumption. Qed.

Theorem C32_outputs_in_recording_order : forall (X F : Type) L (ins outs : list (simobs X F)),
  in_order ins -> delays L ins outs -> in_order outs.
Proof.
  intros X F L ins outs Ho [HL H]. apply nth_order. intros i j a b Lij Ha Hb.
  destruct (nth_error ins i) as [ni|] eqn:Ei. 2:{ apply nth_error_None in Ei. apply nth_error_Some_lt in Ha. lia. }
  destruct (nth_error ins j) as [nj|] eqn:Ej. 2:{ apply nth_error_None in Ej. apply nth_error_Some_lt in Hb. lia. }
  destruct (H _ _ _ Ha Ei) as (x & r & _ & Hr & -> & _ & _ & M). destruct (H _ _ _ Hb Ej) as (y & q & _ & Hq & -> & B & _).
  cbn [o_time]. enough (o_time r <= o_time q) by qlra.
  assert (T : o_time ni <= o_time nj). { eapply (SS_nth _ i j); [exact Ho|lia|apply map_nth_error; exact Ei|apply map_nth_error; exact Ej]. }
  destruct (Nat.lt_trichotomy x y) as [C|[->|C]].
  - eapply (SS_nth _ x y); [exact Ho|exact C|apply map_nth_error; exact Hr|apply map_nth_error; exact Hq].
  - assert (r = q) as -> by congruence. apply Qcle_refl.
  - exfalso. specialize (M y q C Hq). qlra.
Qed.

Example C32_history_ex : exists st' outs,
  sense_all (delayed_sense id_sense (qf 2 10)) (mkDelayed tt []) [] 0%nat hist5 = Ok (st', outs) /\
  map o_time outs = [qf 2 10; qf 2 10; qf 2 10; qf 3 10; qf 4 10].
Proof. eexists; eexists. split; [vm_compute; reflexivity|]. qcompute. Qed.

(** Sampled every dt: the k-th answer is sample k-n (the first one while k<n),
    and from step n on it carries the current time. *)
Theorem C32_regular_sampling : forall (X F : Type) dt n sc pov (ins : list (simobs X F)), 0 < dt -> sampled_every dt ins ->
  exists st outs, sense_all (delayed_sense id_sense (qn n * dt)) (mkDelayed tt []) sc pov ins = Ok (st, outs) /\
    length outs = length ins /\
    forall k out, nth_error outs k = Some out -> exists r, nth_error ins (k - n) = Some r /\
      out = mkObs (o_players r) (qn (Nat.max k n) * dt).
Proof.
  intros X F dt n sc pov ins P0 Hs.
  assert (HL : 0 <= qn n * dt). { assert (0 <= qn n) by (rewrite <- qn_0; apply qn_le; lia). qnra. }
  destruct (delays_run id_sense (qn n * dt) tt sc pov ins tt ins HL (id_run sc pov ins) (sampled_order dt ins P0 Hs)) as (st & outs & A & B).
  exists st, outs. split; [exact A|]. destruct (grid_stack dt 0 n ins ins outs P0 (grid_base dt ins Hs) B) as [C D].
  split; [exact C|]. intros k out Hk. destruct (D k out Hk) as (r & R & ->). exists r. cbn [Nat.add] in *. split; [exact R|].
  f_equal. f_equal. f_equal. lia.
Qed.

(** Wrapping a delay in a delay adds the latencies. *)
Theorem C32_stacked_delays_add : forall (X F : Type) dt n1 n2 sc pov (ins : list (simobs X F)), 0 < dt -> sampled_every dt ins ->
  exists st1 st2 outs,
    sense_all (delayed_sense (delayed_sense id_sense (qn n1 * dt)) (qn n2 * dt)) (mkDelayed (mkDelayed tt []) []) sc pov ins = Ok (st1, outs) /\
    sense_all (delayed_sense id_sense (qn (n1 + n2) * dt)) (mkDelayed tt []) sc pov ins = Ok (st2, outs).
Proof.
  intros X F dt n1 n2 sc pov ins P0 Hs.
  assert (HL : forall n, 0 <= qn n * dt). { intro n. assert (0 <= qn n) by (rewrite <- qn_0; apply qn_le; lia). qnra. }
  destruct (delays_run id_sense (qn n1 * dt) tt sc pov ins tt ins (HL n1) (id_run sc pov ins) (sampled_order dt ins P0 Hs)) as (s1 & mids & A1 & B1).
  pose proof (grid_stack dt 0 n1 ins ins mids P0 (grid_base dt ins Hs) B1) as G1. cbn [Nat.add] in G1.
  destruct (delays_run _ (qn n2 * dt) _ sc pov ins s1 mids (HL n2) A1 (grid_mids dt n1 ins mids P0 G1)) as (s2 & outs & A2 & B2).
  pose proof (grid_stack dt n1 n2 ins mids outs P0 G1 B2) as G2.
  destruct (delays_run id_sense (qn (n1 + n2) * dt) tt sc pov ins tt ins (HL _) (id_run sc pov ins) (sampled_order dt ins P0 Hs)) as (s3 & outs3 & A3 & B3).
  pose proof (grid_stack dt 0 (n1 + n2) ins ins outs3 P0 (grid_base dt ins Hs) B3) as G3. cbn [Nat.add] in G3.
  exists s2, s3, outs. split; [exact A2|]. rewrite (grid_det dt _ ins _ _ G2 G3). exact A3.
Qed.

Example C32_sampled_ex : 0 < qf 1 10 /\ sampled_every (qf 1 10) hist5.
Proof.
  split; [vm_compute; reflexivity|]. intros k o H. do 5 (destruct k as [|k]; [injection H as <-; reflexivity|]). destruct k; discriminate.
Qed.

(** ** C33 *)

(** Exactly the ghost is removed, exactly when somebody else observes it from
    further than the threshold; everything else is what the wrapped filter says. *)
Theorem C33_ghost_exactly : forall (X F P Z_ S : Type) (g : geo X F P Z_) (inner : S -> list F -> simobs X F -> player -> result (S * simobs X F)) ghost d st sc full pov st' out,
  ghost_sense g inner ghost d st sc full pov = Ok (st', out) ->
  exists o, inner st sc full pov = Ok (st', o) /\ o_time out = o_time o /\
    (forall p, p <> ghost -> sees out p = sees o p) /\
    (pov = ghost -> out = o) /\
    (proper o -> pov <> ghost -> forall it, sees o ghost = Some it ->
       exists me a b, sees o pov = Some me /\ position_of g (fst me) = Ok a /\ position_of g (fst it) = Ok b /\
         let dist2 := (fst a - fst b) * (fst a - fst b) + (snd a - snd b) * (snd a - snd b) in
         (sees out ghost = None <-> d < 0 \/ d * d < dist2) /\
         (0 <= d -> dist2 <= d * d -> out = o)).
Proof.
  intros X F P Z_ S g inner ghost d st sc full pov st' out H. unfold ghost_sense in H.
  destruct (inner st sc full pov) as [[s1 o]|] eqn:Ei; [|discriminate].
  unfold sees. destruct (Nat.eqb_spec pov ghost) as [E|E]; cbn [orb] in H.
  { injection H as <- <-. exists o. split; [reflexivity|]. split; [reflexivity|]. split; [reflexivity|]. split; [reflexivity|].
    intros _ C. exfalso; apply C; exact E. }
  unfold dmem in H. destruct (dget (o_players o) ghost) as [it|] eqn:Eg; cbn [negb] in H.
  2:{ injection H as <- <-. exists o. split; [reflexivity|]. split; [reflexivity|]. split; [reflexivity|]. split; [reflexivity|].
      intros _ _ it C. congruence. }
  destruct (dgetE (o_players o) pov) as [me|] eqn:Em; [|discriminate]. apply agetE_Ok in Em.
  destruct (position_of g (fst me)) as [a|] eqn:Ea; [|discriminate].
  unfold agetE in H. rewrite Eg in H. destruct (position_of g (fst it)) as [b|] eqn:Eb; [|discriminate].
  injection H as <- <-. exists o. split; [reflexivity|].
  pose proof (further_iff a b d) as W. destruct (further a b d).
  - split; [reflexivity|]. split; [intros p Hp; cbn [with_players o_players]; apply dget_ddel_other; auto|].
    split; [intro C; contradiction|]. intros N _ it' Hit. exists me, a, b.
    assert (it' = it) as -> by congruence. split; [exact Em|]. split; [exact Ea|]. split; [exact Eb|]. cbv zeta.
    split; [|intros H0 H1; exfalso; destruct W as [W _]; destruct (W eq_refl); qlra].
    cbn [with_players o_players]. split; [intros _; apply W; reflexivity|intros _; apply dget_ddel_same; exact N].
  - split; [reflexivity|]. split; [reflexivity|]. split; [reflexivity|]. intros _ _ it' Hit. exists me, a, b.
    assert (it' = it) as -> by congruence. split; [exact Em|]. split; [exact Ea|]. split; [exact Eb|]. cbv zeta.
    split; [|reflexivity]. split; [intro C; congruence|intro C; apply W in C; discriminate].
Qed.

Example C33_ex : exists o1 o2, ghost_sense line id_sense 1%nat (qz 2) tt [] row 0%nat = Ok (tt, o1) /\ sees o1 1%nat = None /\
  ghost_sense line id_sense 1%nat (qz 3) tt [] row 0%nat = Ok (tt, o2) /\ o2 = row.
Proof. eexists; eexists. split; [vm_compute; reflexivity|]. split; [reflexivity|]. split; vm_compute; reflexivity. Qed.

(** "If further_than is zero, the player is always ghosted" does not hold: an
    observer at the very position of the ghost sees it. *)
Theorem C33_zero_always_ghosted_refuted : exists (g : geo (Qc * Qc) (Qc * Qc) (Qc * Qc) Qc) o pov ghost out,
  proper o /\ pov <> ghost /\ ghost_sense g id_sense ghost 0 tt [] o pov = Ok (tt, out) /\ sees out ghost <> None.
Proof.
  exists line, (mkObs [(0%nat, at_ 0 1); (1%nat, at_ 0 1)] 0), 0%nat, 1%nat. eexists.
  split; [unfold proper; cbn; repeat constructor; cbn; intuition congruence|]. split; [discriminate|].
  split; [vm_compute; reflexivity|vm_compute; discriminate].
Qed.

(** With threshold 0 the ghost is removed for every observer at another position. *)
Theorem C33_zero_ghosted_partial : forall (X F P Z_ S : Type) (g : geo X F P Z_) (inner : S -> list F -> simobs X F -> player -> result (S * simobs X F)) ghost st sc full pov st' o out me it a b,
  proper o -> pov <> ghost -> inner st sc full pov = Ok (st', o) ->
  sees o pov = Some me -> sees o ghost = Some it -> position_of g (fst me) = Ok a -> position_of g (fst it) = Ok b -> a <> b ->
  ghost_sense g inner ghost 0 st sc full pov = Ok (st', out) -> sees out ghost = None.
Proof.
  intros X F P Z_ S g inner ghost st sc full pov st' o out me it a b N Np Ei Em Eg Ea Eb Nab H.
  destruct (C33_ghost_exactly_pf X F P Z_ S g inner ghost 0 st sc full pov st' out H) as (o' & Ei' & _ & _ & _ & A).
  assert (o' = o) as -> by congruence.
  destruct (A N Np it Eg) as (me' & a' & b' & Em' & Ea' & Eb' & W & _).
  assert (me' = me) as -> by congruence. assert (a' = a) as -> by congruence. assert (b' = b) as -> by congruence.
  apply W. right. destruct a as [a1 a2], b as [b1 b2]. cbn [fst snd].
  destruct (Qc_eq_dec a1 b1) as [->|N1].
  - assert (N2 : a2 <> b2) by congruence. pose proof (qsq_pos (a2 - b2) ltac:(intro C; apply N2; qlra)).
    pose proof (qsq_nonneg (b1 - b1)). qlra.
  - pose proof (qsq_pos (a1 - b1) ltac:(intro C; apply N1; qlra)). pose proof (qsq_nonneg (a2 - b2)). qlra.
Qed.

Example C33_zero_ex : exists out, ghost_sense line id_sense 1%nat 0 tt [] row 0%nat = Ok (tt, out) /\ sees out 1%nat = None /\ proper row.
Proof. eexists. split; [vm_compute; reflexivity|]. split; [reflexivity|]. unfold proper; cbn. repeat constructor; cbn; intuition congruence. Qed.
