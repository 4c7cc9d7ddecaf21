(* Generated from tools/Seq.src by tools/gen_props.py. *)
(** Properties C01-C12: sampled sequences (seq/sequence.py, seq/seq_op.py). *)
From Coq Require Import QArith Qcanon ZArith List Bool Arith Lia Sorted.
From Verif Require Import Base Num SeqModel SeqSpec SeqProofs SeqProofs2.
Import ListNotations.
Open Scope Qc_scope.
From Verif Require Import SeqMain.

(** ** C01 *)

(** The constructor accepts exactly the inputs of equal length with strictly
    increasing timestamps, and stores them. *)
Theorem C01_constructor_accepts_iff : forall X ty ts (vs : list X),
  ((exists s, new_seq ty ts vs = Ok s) <->
     length ts = length vs /\ StronglySorted Qclt ts) /\
  (forall s, new_seq ty ts vs = Ok s -> tss s = ts /\ vals s = vs) /\
  (forall e, new_seq ty ts vs = Err e -> e = ZValueError).
Proof. exact C01_constructor_accepts_iff_pf. Qed.
Print Assumptions C01_constructor_accepts_iff.

(** The same for raw Python timestamps (int, float, Decimal): for finite
    numbers, acceptance is equal length, strict increase of the denoted numbers
    and no mix of Decimal with int/float. *)
Theorem C01_constructor_python_numbers : forall X ts qs (vs : list X),
  map stamp_val ts = map Some qs ->
  ((exists r, ctor true ts vs = Ok r) <->
     length ts = length vs /\ StronglySorted Qclt qs /\
     ~ ((exists x, In x ts /\ is_dec x = true) /\ (exists x, In x ts /\ is_num x = true))) /\
  (forall r, ctor true ts vs = Ok r -> r = (ts, vs)).
Proof. exact C01_constructor_python_numbers_pf. Qed.
Print Assumptions C01_constructor_python_numbers.

(** Both views agree on one family of numbers. *)
Theorem C01_views_agree : forall X qs (vs : list X),
  (exists s, new_seq true qs vs = Ok s) <-> (exists r, ctor true (map SDec qs) vs = Ok r).
Proof. exact C01_views_agree_pf. Qed.
Print Assumptions C01_views_agree.

Example C01_ex_accept : new_seq true [qz 0; qf 1 2; qz 3] [10; 20; 30]%nat
  = Ok (mkSeq [qz 0; qf 1 2; qz 3] [10; 20; 30]%nat true).
Proof. vm_compute. reflexivity. Qed.

Example C01_ex_mixed : ctor true [SDec 0; SInt 1] [1; 2]%nat = Err ZValueError /\
  ctor true [SDec 0; SFlt (Fin 1)] [1; 2]%nat = Err PyTypeError /\
  map stamp_val [SDec 0; SInt 1] = map Some [0; 1].
Proof. vm_compute. repeat split. Qed.

(** Every sequence obtainable through the API has strictly increasing
    timestamps, one value per timestamp. *)
Theorem C01_every_obtainable_sequence_increasing : forall X (s : seq X),
  obtainable s -> length (tss s) = length (vals s) /\ StronglySorted Qclt (tss s).
Proof. exact C01_every_obtainable_sequence_increasing_pf. Qed.
Print Assumptions C01_every_obtainable_sequence_increasing.

(** ... and the derived constructions never fail on such sequences. *)
Theorem C01_derived_constructions_total : forall X (s : seq X),
  obtainable s ->
  (forall d, exists s', shift_timestamps s d = Ok s') /\
  (forall Y (f : X -> option Y), exists s', transform_values f s = Ok s') /\
  (forall a b, a <= b -> exists s', get_subsequence s a b = Ok s').
Proof. exact C01_derived_constructions_total_pf. Qed.
Print Assumptions C01_derived_constructions_total.

Example C01_ex_obtainable : exists s s' : seq nat,
  new_seq true [qz 1; qz 2; qz 4] [7; 8; 9]%nat = Ok s /\ get_subsequence s (qz 2) (qz 5) = Ok s' /\
  obtainable s' /\ vals s' = [8; 9]%nat.
Proof.
  eexists (mkSeq [qz 1; qz 2; qz 4] [7; 8; 9]%nat true), (mkSeq [qz 2; qz 4] [8; 9]%nat true).
  split; [vm_compute; reflexivity|]. split; [vm_compute; reflexivity|]. split; [|reflexivity].
  apply (ob_new nat true [qz 2; qz 4] [8; 9]%nat). vm_compute. reflexivity.
Qed.

(** The full claim (for *every* Python number) is false: the check [dt <= 0]
    is false for NaN, so a sequence that goes back in time is accepted when a
    NaN stands in between; likewise two equal infinite timestamps. *)
Theorem C01_nan_timestamps_refuted :
  exists (ts : list stamp) (a b : Qc),
    ctor true ts [1; 2; 3]%nat = Ok (ts, [1; 2; 3]%nat) /\
    nth_error ts 0 = Some (SFlt (Fin a)) /\ nth_error ts 2 = Some (SFlt (Fin b)) /\ b < a.
Proof. exact C01_nan_timestamps_refuted_pf. Qed.
Print Assumptions C01_nan_timestamps_refuted.

Theorem C01_inf_timestamps_refuted :
  ctor true [SFlt PInf; SFlt PInf] [1; 2]%nat = Ok ([SFlt PInf; SFlt PInf], [1; 2]%nat).
Proof. exact C01_inf_timestamps_refuted_pf. Qed.
Print Assumptions C01_inf_timestamps_refuted.

(** ** C02 *)

(** [at t] returns the value stored at [t], and raises UndefinedAtTime exactly
    when no sample is stamped [t]. *)
Theorem C02_at_exact_lookup : forall X (s : seq X) t, obtainable s ->
  (forall v, at_ s t = Ok v <-> In (t, v) (iter s)) /\
  (at_ s t = Err UndefinedAtTime <-> ~ In t (tss s)) /\
  (forall e, at_ s t = Err e -> e = UndefinedAtTime).
Proof. exact C02_at_exact_lookup_pf. Qed.
Print Assumptions C02_at_exact_lookup.

Example C02_ex : let s := mkSeq [qz 1; qf 5 2; qz 4] [7; 8; 9]%nat true in
  at_ s (qf 5 2) = Ok 8%nat /\ at_ s (qz 2) = Err UndefinedAtTime.
Proof. vm_compute. auto. Qed.

(** ** C03 *)

(** Zero-order hold. [is_prev_sample s t v] says that [v] is the value of the
    last sample stamped at or before [t]. *)
Theorem C03_at_or_previous_zero_order_hold : forall X (s : seq X) t, obtainable s ->
  (forall v, at_or_previous s t = Ok v <-> is_prev_sample s t v) /\
  (forall t0, get_start s = Ok t0 -> t < t0 -> at_or_previous s t = Err UndefinedAtTime) /\
  (forall t0, get_start s = Ok t0 -> t0 <= t -> exists v, at_or_previous s t = Ok v) /\
  (tss s = [] -> at_or_previous s t = Err ZValueError).
Proof. exact C03_at_or_previous_zero_order_hold_pf. Qed.
Print Assumptions C03_at_or_previous_zero_order_hold.

Example C03_ex : let s := mkSeq [qz 1; qf 5 2; qz 4] [7; 8; 9]%nat true in
  at_or_previous s (qf 5 2) = Ok 8%nat /\ at_or_previous s (qz 3) = Ok 8%nat /\
  at_or_previous s (qz 9) = Ok 9%nat /\ at_or_previous s 0 = Err UndefinedAtTime.
Proof. vm_compute. auto. Qed.

(** ** C04 *)

(** Interpolation is total on non-empty sequences and given by the contract
    [interp_rel], which determines the result; for any value type with [*] and
    [+]. *)
Theorem C04_at_interp_contract : forall X (mulX : X -> Qc -> X) (addX : X -> X -> X) (s : seq X) t,
  obtainable s ->
  (tss s <> [] -> exists v, at_interp mulX addX s t = Ok v) /\
  (forall v, at_interp mulX addX s t = Ok v <-> interp_rel mulX addX s t v).
Proof. exact C04_at_interp_contract_pf. Qed.
Print Assumptions C04_at_interp_contract.

(** On numbers: ends are held; at a stamp the stored value is returned; between
    two consecutive samples the result lies on the chord and between the two
    values. *)
Theorem C04_at_interp_numbers : forall (s : seq Qc) t, obtainable s ->
  (forall t0 v0, nth_error (iter s) 0 = Some (t0, v0) -> t <= t0 -> interpQ s t = Ok v0) /\
  (forall t1 v1, last_of (iter s) = Some (t1, v1) -> t1 <= t -> interpQ s t = Ok v1) /\
  (forall v, In (t, v) (iter s) -> interpQ s t = Ok v) /\
  (forall t0 v0 t1 v1, adjacent s t0 v0 t1 v1 -> t0 <= t <= t1 ->
     exists v, interpQ s t = Ok v /\
       v = v0 + (v1 - v0) * (t - t0) / (t1 - t0) /\
       qmin v0 v1 <= v <= qmax v0 v1).
Proof. exact C04_at_interp_numbers_pf. Qed.
Print Assumptions C04_at_interp_numbers.

Example C04_ex : let s := mkSeq [qz 1; qz 2; qz 4] [qz 10; qz 20; qz 0] true in
  interpQ s (qf 3 2) = Ok (qz 15) /\ interpQ s (qz 3) = Ok (qz 10) /\ interpQ s (qz 9) = Ok 0 /\
  interpQ s 0 = Ok (qz 10) /\ interpQ s (qz 2) = Ok (qz 20) /\ obtainable s /\
  adjacent s (qz 2) (qz 20) (qz 4) (qz 0).
Proof.
  repeat (split; [vm_compute; reflexivity|]). split.
  - apply (ob_new _ true [qz 1; qz 2; qz 4] [qz 10; qz 20; qz 0]). vm_compute. reflexivity.
  - exists 1%nat. split; reflexivity.
Qed.

(** ** C05 *)

Theorem C05_subsequence_is_closed_window : forall X (s : seq X) a b, obtainable s ->
  (a <= b -> exists s', get_subsequence s a b = Ok s' /\
     iter s' = filter (fun p => qleb a (fst p) && qleb (fst p) b) (iter s) /\
     length (tss s') = length (vals s')) /\
  (b < a -> get_subsequence s a b = Err PyAssertionError).
Proof. exact C05_subsequence_is_closed_window_pf. Qed.
Print Assumptions C05_subsequence_is_closed_window.

(** In terms of membership: a sample is in the window iff its timestamp is in
    [[a,b]]. *)
Theorem C05_subsequence_membership : forall X (s s' : seq X) a b, obtainable s ->
  get_subsequence s a b = Ok s' ->
  forall t v, In (t, v) (iter s') <-> In (t, v) (iter s) /\ a <= t <= b.
Proof. exact C05_subsequence_membership_pf. Qed.
Print Assumptions C05_subsequence_membership.

Example C05_ex : let s := mkSeq [qz 1; qz 2; qz 4; qz 5] [6; 7; 8; 9]%nat true in
  rmap (@iter nat) (get_subsequence s (qz 2) (qz 4)) = Ok [(qz 2, 7); (qz 4, 8)]%nat /\
  rmap (@iter nat) (get_subsequence s (qf 5 2) (qz 3)) = Ok [] /\
  get_subsequence s (qz 3) (qz 2) = Err PyAssertionError.
Proof. vm_compute. auto. Qed.

(** ** C06 *)

Theorem C06_shift_is_time_translation : forall X (s : seq X) d, obtainable s ->
  exists s', shift_timestamps s d = Ok s' /\
    iter s' = map (fun p => (fst p + d, snd p)) (iter s) /\
    (forall t, at_ s' (t + d) = at_ s t) /\
    (forall t, at_or_previous s' (t + d) = at_or_previous s t) /\
    (forall mulX addX t, at_interp mulX addX s' (t + d) = at_interp mulX addX s t) /\
    (forall a b, a <= b -> exists w w', get_subsequence s a b = Ok w /\
        get_subsequence s' (a + d) (b + d) = Ok w' /\
        iter w' = map (fun p => (fst p + d, snd p)) (iter w)).
Proof. exact C06_shift_is_time_translation_pf. Qed.
Print Assumptions C06_shift_is_time_translation.

Theorem C06_shift_back_is_identity : forall X (s s1 s2 : seq X) d, obtainable s ->
  shift_timestamps s d = Ok s1 -> shift_timestamps s1 (- d) = Ok s2 ->
  tss s2 = tss s /\ vals s2 = vals s.
Proof. exact C06_shift_back_is_identity_pf. Qed.
Print Assumptions C06_shift_back_is_identity.

Example C06_ex : let s := mkSeq [qz 1; qz 2; qz 4] [7; 8; 9]%nat true in
  rmap (@iter nat) (shift_timestamps s (qf 1 2)) = Ok [(qf 3 2, 7); (qf 5 2, 8); (qf 9 2, 9)]%nat.
Proof. vm_compute. reflexivity. Qed.

(** ** C07 *)

(** Exactly the samples with a defined image, in the original (time) order. *)
Theorem C07_transform_keeps_defined_images : forall X Y (f : X -> option Y) (s : seq X), obtainable s ->
  exists s', transform_values f s = Ok s' /\
    (forall t y, In (t, y) (iter s') <-> exists v, In (t, v) (iter s) /\ f v = Some y) /\
    StronglySorted Qclt (tss s') /\ length (tss s') = length (vals s').
Proof. exact C07_transform_keeps_defined_images_pf. Qed.
Print Assumptions C07_transform_keeps_defined_images.

(** For a total function timestamps are unchanged and values are mapped; two
    transforms compose. *)
Theorem C07_transform_total_function : forall X Y Z (g : X -> Y) (h : Y -> Z) (s : seq X), obtainable s ->
  exists s1 s2 s3,
    transform_values (fun x => Some (g x)) s = Ok s1 /\
    transform_values (fun y => Some (h y)) s1 = Ok s2 /\
    transform_values (fun x => Some (h (g x))) s = Ok s3 /\
    tss s1 = tss s /\ vals s1 = map g (vals s) /\ s2 = s3.
Proof. exact C07_transform_total_function_pf. Qed.
Print Assumptions C07_transform_total_function.

Example C07_ex : let s := mkSeq [qz 1; qz 2; qz 4] [7; 8; 9]%nat true in
  rmap (@iter nat) (transform_values (fun v => if (v =? 8)%nat then None else Some (v * 10)%nat) s)
  = Ok [(qz 1, 70); (qz 4, 90)]%nat.
Proof. vm_compute. reflexivity. Qed.

(** ** C08 *)

(** For every history of calls on a fresh builder, what the caller sees is what
    the abstract builder (a list of accepted samples, [spec_step]) shows: [add]
    succeeds iff the time is later than all accepted ones, and [as_sequence]
    always succeeds with exactly the accepted samples in order. *)
Theorem C08_builder_refines_list : forall X (ops : list (bop X)),
  trace b_step b_empty ops = trace spec_step [] ops.
Proof. exact C08_builder_refines_list_pf. Qed.
Print Assumptions C08_builder_refines_list.

Example C08_ex : trace (@b_step nat) b_empty
    [BAdd (qz 1) 5; BSnap; BAdd (qz 1) 6; BAdd (qz 3) 7; BAdd (qz 2) 8; BSnap]%nat
  = [BAdded; BSeq [(qz 1, 5)]; BRejected; BAdded; BRejected; BSeq [(qz 1, 5); (qz 3, 7)]]%nat.
Proof. vm_compute. reflexivity. Qed.

(** ** C09 *)

(** [iterate_with_dt] yields exactly the adjacent pairs in order, with positive
    [dt]; the [dt]s add up to the duration. *)
Theorem C09_iterate_adjacent_pairs : forall X (s : seq X), obtainable s -> typed s = true ->
  exists l, iterate_with_dt s = Ok l /\
    length l = (length (tss s) - 1)%nat /\
    (forall i t0 v0 t1 v1, nth_error (iter s) i = Some (t0, v0) -> nth_error (iter s) (S i) = Some (t1, v1) ->
       nth_error l i = Some (mkIt t0 t1 (t1 - t0) v0 v1)) /\
    (forall it, In it l -> 0 < it_dt it) /\
    (forall a b, get_start s = Ok a -> get_end s = Ok b -> qsum (map it_dt l) = b - a).
Proof. exact C09_iterate_adjacent_pairs_pf. Qed.
Print Assumptions C09_iterate_adjacent_pairs.

(** A sequence created without a type argument cannot be iterated: reading
    [XT] fails as soon as there is a pair. (Finding.) *)
Theorem C09_untyped_sequence_refuted :
  exists s : seq nat, obtainable s /\ iterate_with_dt s = Err PyAttributeError.
Proof. exact C09_untyped_sequence_refuted_pf. Qed.
Print Assumptions C09_untyped_sequence_refuted.

Example C09_ex : let s := mkSeq [qz 1; qz 2; qz 4] [7; 8; 9]%nat true in
  iterate_with_dt s = Ok [mkIt (qz 1) (qz 2) (qz 1) 7 8; mkIt (qz 2) (qz 4) (qz 2) 8 9]%nat.
Proof. vm_compute. reflexivity. Qed.

(** ** C10 *)

(** Running sum. *)
Theorem C10_accumulate_running_sum : forall (s : seq Qc), obtainable s -> typed s = true ->
  exists s', seq_accumulate s = Ok s' /\ tss s' = tss s /\ length (vals s') = length (vals s) /\
    forall k v, nth_error (vals s') k = Some v -> v = qsum (firstn (S k) (vals s)).
Proof. exact C10_accumulate_running_sum_pf. Qed.
Print Assumptions C10_accumulate_running_sum.

(** Running trapezoid integral: the k-th value is the area under the first k+2
    samples and is stamped with the (k+1)-th timestamp; the result can be iterated and
    integrated again. *)
Theorem C10_integrate_running_area : forall (s : seq Qc), obtainable s -> typed s = true ->
  (2 <= length (tss s))%nat ->
  exists s', seq_integrate s = Ok s' /\ typed s' = true /\ tss s' = tl (tss s) /\
    length (vals s') = (length (tss s) - 1)%nat /\
    forall k v, nth_error (vals s') k = Some v -> v = area (firstn (k + 2) (iter s)).
Proof. exact C10_integrate_running_area_pf. Qed.
Print Assumptions C10_integrate_running_area.

(** Degenerate inputs. *)
Theorem C10_integrate_short : forall (s : seq Qc), obtainable s ->
  (tss s = [] -> seq_integrate s = Err PyValueError) /\
  (length (tss s) = 1%nat -> seq_integrate s = Ok s).
Proof. exact C10_integrate_short_pf. Qed.
Print Assumptions C10_integrate_short.

(** Additive in the signal. *)
Theorem C10_integrate_additive : forall ts us vs s1 s2 s3 r1 r2 r3,
  new_seq true ts us = Ok s1 -> new_seq true ts vs = Ok s2 ->
  new_seq true ts (map (fun p => fst p + snd p) (combine us vs)) = Ok s3 ->
  (2 <= length ts)%nat ->
  seq_integrate s1 = Ok r1 -> seq_integrate s2 = Ok r2 -> seq_integrate s3 = Ok r3 ->
  vals r3 = map (fun p => fst p + snd p) (combine (vals r1) (vals r2)).
Proof. exact C10_integrate_additive_pf. Qed.
Print Assumptions C10_integrate_additive.

(** On a constant signal [c] the integral at [t] is [c * (t - start)]. *)
Theorem C10_integrate_constant : forall (s r : seq Qc) c t0 k t v, obtainable s -> typed s = true ->
  (forall x, In x (vals s) -> x = c) -> get_start s = Ok t0 ->
  (2 <= length (tss s))%nat -> seq_integrate s = Ok r ->
  nth_error (iter r) k = Some (t, v) -> v = c * (t - t0).
Proof. exact C10_integrate_constant_pf. Qed.
Print Assumptions C10_integrate_constant.

Example C10_ex : let s := mkSeq [qz 1; qz 2; qz 4] [qz 1; qz 3; qz 5] true in
  rmap (@iter Qc) (seq_integrate s) = Ok [(qz 2, qz 2); (qz 4, qz 10)] /\
  rmap (@iter Qc) (seq_accumulate s) = Ok [(qz 1, qz 1); (qz 2, qz 4); (qz 4, qz 9)] /\
  area [(qz 1, qz 1); (qz 2, qz 3); (qz 4, qz 5)] = qz 10.
Proof. vm_compute. auto. Qed.

(** ** C11 *)

(** One chord slope per adjacent pair, stamped strictly inside (the midpoint). *)
Theorem C11_differentiate_slopes : forall (s : seq Qc), obtainable s -> typed s = true -> tss s <> [] ->
  exists s', seq_differentiate s = Ok s' /\ length (iter s') = (length (tss s) - 1)%nat /\
    forall i t0 v0 t1 v1,
      nth_error (iter s) i = Some (t0, v0) -> nth_error (iter s) (S i) = Some (t1, v1) ->
      exists tm d, nth_error (iter s') i = Some (tm, d) /\
        t0 < tm /\ tm < t1 /\ tm - t0 = t1 - tm /\ d * (t1 - t0) = v1 - v0.
Proof. exact C11_differentiate_slopes_pf. Qed.
Print Assumptions C11_differentiate_slopes.

(** Multiplying the derivative samples by the interval lengths and summing
    gives last minus first value. *)
Theorem C11_differentiate_telescopes : forall (s s' : seq Qc) l t0 v0 t1 v1, obtainable s ->
  seq_differentiate s = Ok s' -> iterate_with_dt s = Ok l ->
  nth_error (iter s) 0 = Some (t0, v0) -> last_of (iter s) = Some (t1, v1) ->
  qsum (map (fun p => fst p * it_dt (snd p)) (combine (vals s') l)) = v1 - v0.
Proof. exact C11_differentiate_telescopes_pf. Qed.
Print Assumptions C11_differentiate_telescopes.

(** The derivative of a straight line is its slope everywhere. *)
Theorem C11_differentiate_line : forall (s s' : seq Qc) m c, obtainable s ->
  (forall t v, In (t, v) (iter s) -> v = m * t + c) -> seq_differentiate s = Ok s' ->
  forall d, In d (vals s') -> d = m.
Proof. exact C11_differentiate_line_pf. Qed.
Print Assumptions C11_differentiate_line.

Example C11_ex : let s := mkSeq [qz 1; qz 2; qz 4] [qz 1; qz 3; qz 2] true in
  rmap (@iter Qc) (seq_differentiate s) = Ok [(qf 3 2, qz 2); (qz 3, qf (-1) 2)].
Proof. vm_compute. reflexivity. Qed.

(** ** C12 *)

(** Soundness: every returned time lies in an interval whose end samples are on
    different sides and linear interpolation there hits the level exactly. *)
Theorem C12_crossings_sound : forall (s : seq Qc) level t, obtainable s ->
  In t (find_crossings s level) ->
  exists t0 v0 t1 v1, adjacent s t0 v0 t1 v1 /\
    ((v0 < level /\ level <= v1) \/ (v1 < level /\ level <= v0)) /\
    t0 <= t <= t1 /\ interpQ s t = Ok level /\
    (v0 <> level -> v1 <> level -> t0 < t /\ t < t1).
Proof. exact C12_crossings_sound_pf. Qed.
Print Assumptions C12_crossings_sound.

(** Completeness: every interval with a change of side contributes exactly one
    time, in order; so the result has as many entries as there are changes, and
    is sorted. *)
Theorem C12_crossings_complete : forall (s : seq Qc) level, obtainable s ->
  (forall t0 v0 t1 v1, adjacent s t0 v0 t1 v1 ->
     ((v0 < level /\ level <= v1) \/ (v1 < level /\ level <= v0)) ->
     exists t, In t (find_crossings s level) /\ t0 <= t <= t1) /\
  length (find_crossings s level) =
    length (filter (fun p => xorb (qltb (fst p) level) (qltb (snd p) level))
                   (combine (vals s) (tl (vals s)))) /\
  Sorted Qcle (find_crossings s level).
Proof. exact C12_crossings_complete_pf. Qed.
Print Assumptions C12_crossings_complete.

Example C12_ex : find_crossings (mkSeq [qz 1; qz 2; qz 3; qz 4; qz 5] [qz 1; 0; 0; qz 1; qz 2] true) (qf 1 2)
  = [qf 3 2; qf 7 2].
Proof. vm_compute. reflexivity. Qed.
