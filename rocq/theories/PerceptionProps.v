(* Generated from tools/Perception.src by tools/gen_props.py. *)
(** Properties of the observation filters. *)
From Coq Require Import QArith Qcanon ZArith List Bool Arith Lia Permutation Sorted.
From Verif Require Import Base Num SeqModel SeqProofs DictLemmas SimulatorModel PerceptionModel PerceptionSpec PerceptionProofs PerceptionExamples.
Import ListNotations.
Open Scope Qc_scope.
From Verif Require Import PerceptionMain.

(** ** C31 *)

(** Same time; the observer's own entry unchanged; every player shown was in
    the input with the same state (and the same occupancy, unless that made the
    intersection test raise and was repaired); nobody is invented or listed twice. *)
Theorem C31_only_removes : forall (X F P Z_ : Type) (g : geo X F P Z_) st sc o pov st' out,
  proper o -> fov_sense g st sc o pov = Ok (st', out) ->
  o_time out = o_time o /\ sees out pov = sees o pov /\ sees o pov <> None /\ proper out /\
  forall p x occ, sees out p = Some (x, occ) ->
    exists occ0, sees o p = Some (x, occ0) /\ (occ = occ0 \/ (valid g occ0 = false /\ repair g occ0 = Ok occ)).
Proof. exact C31_only_removes_pf. Qed.
Print Assumptions C31_only_removes.

Example C31_only_removes_ex :
  exists st' out, fov_sense line fov_new [] row 0%nat = Ok (st', out) /\ proper row /\ sees out 2%nat = None /\ sees out 1%nat = Some (at_ 3 4).
Proof.
  eexists; eexists. split; [vm_compute; reflexivity|]. split; [|split; vm_compute; reflexivity].
  unfold proper; cbn. repeat constructor; cbn; intuition congruence.
Qed.

(** Without geometry exceptions: with a filter that has only been used in this
    scenario, another player is shown exactly when its occupancy intersects the
    region the sensor sees from the observer's pose, given all static obstacles
    and all other players as obstacles. *)
Theorem C31_shows_exactly_the_visible : forall (X F P Z_ : Type) (g : geo X F P Z_) st sc o pov st' out,
  (forall a b, exists t, hits g a b = Ok t) ->
  used_with g sc st -> proper o -> fov_sense g st sc o pov = Ok (st', out) ->
  exists me z polys region, sees o pov = Some me /\ pose_of g (fst me) = Ok z /\
    polys_of g (sc ++ map (fun e => snd (snd e)) (filter (fun e => negb (Nat.eqb (fst e) pov)) (o_players o))) polys /\
    fov g z polys = Ok region /\
    forall p x occ, p <> pov -> sees o p = Some (x, occ) ->
      (hits g region occ = Ok true -> sees out p = Some (x, occ)) /\
      (hits g region occ = Ok false -> sees out p = None).
Proof. exact C31_shows_exactly_the_visible_pf. Qed.
Print Assumptions C31_shows_exactly_the_visible.

Example C31_shows_ex : exists st' out,
  used_with line wall fov_new /\ fov_sense line fov_new wall row 0%nat = Ok (st', out) /\ sees out 1%nat = None /\ sees out 0%nat = Some (at_ 0 1).
Proof. eexists; eexists. split; [constructor|]. split; [vm_compute; reflexivity|]. split; vm_compute; reflexivity. Qed.

(** In general: the test may raise, the region and the occupancy are then
    repaired, and the player is shown exactly when the repaired test succeeds. *)
Theorem C31_visible_after_repair : forall (X F P Z_ : Type) (g : geo X F P Z_) st sc o pov st' out p x occ,
  proper o -> fov_sense g st sc o pov = Ok (st', out) -> p <> pov -> sees o p = Some (x, occ) ->
  exists z polys region r, (exists me, sees o pov = Some me /\ pose_of g (fst me) = Ok z) /\
    fov g z polys = Ok region /\ region_of g region r /\
    exists occ' b, visible g r occ occ' b /\ sees out p = if b then Some (x, occ') else None.
Proof. exact C31_visible_after_repair_pf. Qed.
Print Assumptions C31_visible_after_repair.

Example C31_repair_ex : exists st' out,
  fov_sense line fov_new [] row_bad 0%nat = Ok (st', out) /\ sees out 1%nat = Some ((qz 3, 0), (qz 3, qz 4)).
Proof. eexists; eexists. split; vm_compute; reflexivity. Qed.

(** An observer that is not in the observation is an error. *)
Theorem C31_observer_must_be_present : forall (X F P Z_ : Type) (g : geo X F P Z_) st sc o pov,
  sees o pov = None -> fov_sense g st sc o pov = Err PyKeyError.
Proof. exact C31_observer_must_be_present_pf. Qed.
Print Assumptions C31_observer_must_be_present.

Example C31_absent_ex : sees row 9%nat = None.
Proof. reflexivity. Qed.

(** The documented purpose: which players are seen depends on the scenario at
    hand.  A filter that was used in another scenario keeps that scenario's
    obstacles: here a wall that no longer exists still hides player 1. *)
Theorem C31_scenario_change_refuted : exists (g : geo (Qc * Qc) (Qc * Qc) (Qc * Qc) Qc) old sc st o pov st1 out1 st2 out2,
  used_with g old st /\ proper o /\
  fov_sense g st sc o pov = Ok (st1, out1) /\ fov_sense g fov_new sc o pov = Ok (st2, out2) /\
  sees out1 1%nat = None /\ sees out2 1%nat <> None.
Proof. exact C31_scenario_change_refuted_pf. Qed.
Print Assumptions C31_scenario_change_refuted.

(** ** C32 *)

(** Every answer is a recorded observation at most [L] old and never from the
    future, stamped with its recording time + L; it is the oldest such one. *)
Theorem C32_data_age : forall (X F S : Type) (inner : S -> list F -> simobs X F -> player -> result (S * simobs X F)) L s0 st past sc full pov st' out s' o,
  0 <= L -> fed inner L s0 st past -> inner (dl_inner st) sc full pov = Ok (s', o) -> in_order (past ++ [o]) ->
  delayed_sense inner L st sc full pov = Ok (st', out) ->
  exists r, In r (past ++ [o]) /\ o_players out = o_players r /\ o_time out = o_time r + L /\
    o_time o - L <= o_time r /\ o_time r <= o_time o /\
    (forall q, In q (past ++ [o]) -> o_time q < o_time r -> o_time q < o_time o - L).
Proof. exact C32_data_age_pf. Qed.
Print Assumptions C32_data_age.

Example C32_fed_ex : exists st st' out, fed id_sense (qf 2 10) tt st (firstn 4 hist5) /\ in_order hist5 /\
  delayed_sense id_sense (qf 2 10) st [] (only0 (qn 4 * qf 1 10)) 0%nat = Ok (st', out) /\ o_time out = qf 4 10.
Proof.
  eexists; eexists; eexists. split; [|split; [|split; [|]]].
  - change (firstn 4 hist5) with (((([] ++ [only0 (qn 0 * qf 1 10)]) ++ [only0 (qn 1 * qf 1 10)]) ++ [only0 (qn 2 * qf 1 10)]) ++ [only0 (qn 3 * qf 1 10)]).
    eapply (fed_sense _ _ _ _ _ [] (only0 (qn 3 * qf 1 10)) 0%nat); [eapply (fed_sense _ _ _ _ _ [] (only0 (qn 2 * qf 1 10)) 0%nat); [eapply (fed_sense _ _ _ _ _ [] (only0 (qn 1 * qf 1 10)) 0%nat); [eapply (fed_sense _ _ _ _ _ [] (only0 (qn 0 * qf 1 10)) 0%nat); [apply fed_new|vm_compute; reflexivity|reflexivity]|vm_compute; reflexivity|reflexivity]|vm_compute; reflexivity|reflexivity]|vm_compute; reflexivity|reflexivity].
  - unfold in_order. cbn [hist5 map List.seq o_time only0]. repeat (constructor; [|repeat (constructor; [vm_compute; discriminate|]); constructor]); constructor.
  - vm_compute. reflexivity.
  - qcompute.
Qed.

(** If a sample exactly [L] old was recorded it is the one returned, and it is
    stamped with the current time. *)
Theorem C32_exact : forall (X F S : Type) (inner : S -> list F -> simobs X F -> player -> result (S * simobs X F)) L s0 st past sc full pov st' out s' o q,
  0 <= L -> fed inner L s0 st past -> inner (dl_inner st) sc full pov = Ok (s', o) ->
  StronglySorted Qclt (map o_time (past ++ [o])) ->
  delayed_sense inner L st sc full pov = Ok (st', out) ->
  In q (past ++ [o]) -> o_time q = o_time o - L -> out = mkObs (o_players q) (o_time o).
Proof. exact C32_exact_pf. Qed.
Print Assumptions C32_exact.

(** The filter answers whenever the wrapped filter does. *)
Theorem C32_always_answers : forall (X F S : Type) (inner : S -> list F -> simobs X F -> player -> result (S * simobs X F)) L s0 st past sc full pov s' o,
  0 <= L -> fed inner L s0 st past -> inner (dl_inner st) sc full pov = Ok (s', o) -> in_order (past ++ [o]) ->
  exists st' out, delayed_sense inner L st sc full pov = Ok (st', out) /\ fed inner L s0 st' (past ++ [o]).
Proof. exact C32_always_answers_pf. Qed.
Print Assumptions C32_always_answers.

(** A negative latency is accepted by the constructor but every query fails. *)
Theorem C32_negative_latency_fails : forall (X F S : Type) (inner : S -> list F -> simobs X F -> player -> result (S * simobs X F)) L s0 st past sc full pov s' o,
  L < 0 -> fed inner L s0 st past -> inner (dl_inner st) sc full pov = Ok (s', o) -> in_order (past ++ [o]) ->
  delayed_sense inner L st sc full pov = Err PyIndexError.
Proof. exact C32_negative_latency_fails_pf. Qed.
Print Assumptions C32_negative_latency_fails.

Example C32_negative_ex : qz (-1) < 0 /\ fed id_sense (qz (-1)) tt (mkDelayed tt []) (@nil (simobs (Qc * Qc) (Qc * Qc))) /\ in_order ([] ++ [row]).
Proof. split; [vm_compute; reflexivity|]. split; [constructor|]. repeat constructor. Qed.

(** Whole histories: the outputs are the delayed inputs, in recording order. *)
Theorem C32_history : forall (X F S : Type) (inner : S -> list F -> simobs X F -> player -> result (S * simobs X F)) L s0 sc pov ins s' mids,
  0 <= L -> sense_all inner s0 sc pov ins = Ok (s', mids) -> in_order mids ->
  exists st' outs, sense_all (delayed_sense inner L) (mkDelayed s0 []) sc pov ins = Ok (st', outs) /\ delays L mids outs.
Proof. exact C32_history_pf. Qed.
Print Assumptions C32_history.

Theorem C32_outputs_in_recording_order : forall (X F : Type) L (ins outs : list (simobs X F)),
  in_order ins -> delays L ins outs -> in_order outs.
Proof. exact C32_outputs_in_recording_order_pf. Qed.
Print Assumptions C32_outputs_in_recording_order.

Example C32_history_ex : exists st' outs,
  sense_all (delayed_sense id_sense (qf 2 10)) (mkDelayed tt []) [] 0%nat hist5 = Ok (st', outs) /\
  map o_time outs = [qf 2 10; qf 2 10; qf 2 10; qf 3 10; qf 4 10].
Proof. eexists; eexists. split; [vm_compute; reflexivity|]. qcompute. Qed.

(** Sampled every dt: the k-th answer is sample k-n (the first one while k<n),
    and from step n on it carries the current time. *)
Theorem C32_regular_sampling : forall (X F : Type) dt n sc pov (ins : list (simobs X F)), 0 < dt -> sampled_every dt ins ->
  exists st outs, sense_all (delayed_sense id_sense (qn n * dt)) (mkDelayed tt []) sc pov ins = Ok (st, outs) /\
    length outs = length ins /\
    forall k out, nth_error outs k = Some out -> exists r, nth_error ins (k - n) = Some r /\
      out = mkObs (o_players r) (qn (Nat.max k n) * dt).
Proof. exact C32_regular_sampling_pf. Qed.
Print Assumptions C32_regular_sampling.

(** Wrapping a delay in a delay adds the latencies. *)
Theorem C32_stacked_delays_add : forall (X F : Type) dt n1 n2 sc pov (ins : list (simobs X F)), 0 < dt -> sampled_every dt ins ->
  exists st1 st2 outs,
    sense_all (delayed_sense (delayed_sense id_sense (qn n1 * dt)) (qn n2 * dt)) (mkDelayed (mkDelayed tt []) []) sc pov ins = Ok (st1, outs) /\
    sense_all (delayed_sense id_sense (qn (n1 + n2) * dt)) (mkDelayed tt []) sc pov ins = Ok (st2, outs).
Proof. exact C32_stacked_delays_add_pf. Qed.
Print Assumptions C32_stacked_delays_add.

Example C32_sampled_ex : 0 < qf 1 10 /\ sampled_every (qf 1 10) hist5.
Proof.
  split; [vm_compute; reflexivity|]. intros k o H. do 5 (destruct k as [|k]; [injection H as <-; reflexivity|]). destruct k; discriminate.
Qed.

(** ** C33 *)

(** Exactly the ghost is removed, exactly when somebody else observes it from
    further than the threshold; everything else is what the wrapped filter says. *)
Theorem C33_ghost_exactly : forall (X F P Z_ S : Type) (g : geo X F P Z_) (inner : S -> list F -> simobs X F -> player -> result (S * simobs X F)) ghost d st sc full pov st' out,
  ghost_sense g inner ghost d st sc full pov = Ok (st', out) ->
  exists o, inner st sc full pov = Ok (st', o) /\ o_time out = o_time o /\
    (forall p, p <> ghost -> sees out p = sees o p) /\
    (pov = ghost -> out = o) /\
    (proper o -> pov <> ghost -> forall it, sees o ghost = Some it ->
       exists me a b, sees o pov = Some me /\ position_of g (fst me) = Ok a /\ position_of g (fst it) = Ok b /\
         let dist2 := (fst a - fst b) * (fst a - fst b) + (snd a - snd b) * (snd a - snd b) in
         (sees out ghost = None <-> d < 0 \/ d * d < dist2) /\
         (0 <= d -> dist2 <= d * d -> out = o)).
Proof. exact C33_ghost_exactly_pf. Qed.
Print Assumptions C33_ghost_exactly.

Example C33_ex : exists o1 o2, ghost_sense line id_sense 1%nat (qz 2) tt [] row 0%nat = Ok (tt, o1) /\ sees o1 1%nat = None /\
  ghost_sense line id_sense 1%nat (qz 3) tt [] row 0%nat = Ok (tt, o2) /\ o2 = row.
Proof. eexists; eexists. split; [vm_compute; reflexivity|]. split; [reflexivity|]. split; vm_compute; reflexivity. Qed.

(** "If further_than is zero, the player is always ghosted" does not hold: an
    observer at the very position of the ghost sees it. *)
Theorem C33_zero_always_ghosted_refuted : exists (g : geo (Qc * Qc) (Qc * Qc) (Qc * Qc) Qc) o pov ghost out,
  proper o /\ pov <> ghost /\ ghost_sense g id_sense ghost 0 tt [] o pov = Ok (tt, out) /\ sees out ghost <> None.
Proof. exact C33_zero_always_ghosted_refuted_pf. Qed.
Print Assumptions C33_zero_always_ghosted_refuted.

(** With threshold 0 the ghost is removed for every observer at another position. *)
Theorem C33_zero_ghosted_partial : forall (X F P Z_ S : Type) (g : geo X F P Z_) (inner : S -> list F -> simobs X F -> player -> result (S * simobs X F)) ghost st sc full pov st' o out me it a b,
  proper o -> pov <> ghost -> inner st sc full pov = Ok (st', o) ->
  sees o pov = Some me -> sees o ghost = Some it -> position_of g (fst me) = Ok a -> position_of g (fst it) = Ok b -> a <> b ->
  ghost_sense g inner ghost 0 st sc full pov = Ok (st', out) -> sees out ghost = None.
Proof. exact C33_zero_ghosted_partial_pf. Qed.
Print Assumptions C33_zero_ghosted_partial.

Example C33_zero_ex : exists out, ghost_sense line id_sense 1%nat 0 tt [] row 0%nat = Ok (tt, out) /\ sees out 1%nat = None /\ proper row.
Proof. eexists. split; [vm_compute; reflexivity|]. split; [reflexivity|]. unfold proper; cbn. repeat constructor; cbn; intuition congruence. Qed.
