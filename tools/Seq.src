(** Properties C01-C12: sampled sequences (seq/sequence.py, seq/seq_op.py). *)
From Coq Require Import QArith Qcanon ZArith List Bool Arith Lia Sorted.
From Verif Require Import Base Num SeqModel SeqSpec SeqProofs SeqProofs2.
Import ListNotations.
Open Scope Qc_scope.
(* BODY *)

(** ** C01 *)

(** The constructor accepts exactly the inputs of equal length with strictly
    increasing timestamps, and stores them. *)
Theorem C01_constructor_accepts_iff : forall X ty ts (vs : list X),
  ((exists s, new_seq ty ts vs = Ok s) <->
     length ts = length vs /\ StronglySorted Qclt ts) /\
  (forall s, new_seq ty ts vs = Ok s -> tss s = ts /\ vals s = vs) /\
  (forall e, new_seq ty ts vs = Err e -> e = ZValueError).
Proof.
  intros X ty ts vs. split; [split|split].
  - intros [s H]. apply new_seq_inv in H. tauto.
  - intros [H1 H2]. eexists. apply new_seq_ok; assumption.
  - intros s H. apply new_seq_inv in H as (_ & _ & ->). auto.
  - intros e H. eapply new_seq_err; exact H.
Qed.

(** The same for raw Python timestamps (int, float, Decimal): for finite
    numbers, acceptance is equal length, strict increase of the denoted numbers
    and no mix of Decimal with int/float. *)
Theorem C01_constructor_python_numbers : forall X ts qs (vs : list X),
  map stamp_val ts = map Some qs ->
  ((exists r, ctor true ts vs = Ok r) <->
     length ts = length vs /\ StronglySorted Qclt qs /\
     ~ ((exists x, In x ts /\ is_dec x = true) /\ (exists x, In x ts /\ is_num x = true))) /\
  (forall r, ctor true ts vs = Ok r -> r = (ts, vs)).
Proof.
  intros X ts qs vs H. split; [|intros r; apply ctor_result].
  rewrite (ctor_iff ts qs vs H). rewrite <- !existsb_exists. reflexivity.
Qed.

(** Both views agree on one family of numbers. *)
Theorem C01_views_agree : forall X qs (vs : list X),
  (exists s, new_seq true qs vs = Ok s) <-> (exists r, ctor true (map SDec qs) vs = Ok r).
Proof.
  intros X qs vs. apply ctor_new_seq.
Qed.

Example C01_ex_accept : new_seq true [qz 0; qf 1 2; qz 3] [10; 20; 30]%nat
  = Ok (mkSeq [qz 0; qf 1 2; qz 3] [10; 20; 30]%nat true).
Proof. vm_compute. reflexivity. Qed.

Example C01_ex_mixed : ctor true [SDec 0; SInt 1] [1; 2]%nat = Err ZValueError /\
  ctor true [SDec 0; SFlt (Fin 1)] [1; 2]%nat = Err PyTypeError /\
  map stamp_val [SDec 0; SInt 1] = map Some [0; 1].
Proof. vm_compute. repeat split. Qed.

(** Every sequence obtainable through the API has strictly increasing
    timestamps, one value per timestamp. *)
Theorem C01_every_obtainable_sequence_increasing : forall X (s : seq X),
  obtainable s -> length (tss s) = length (vals s) /\ StronglySorted Qclt (tss s).
Proof.
  intros X s H. exact (obtainable_WF X s H).
Qed.

(** ... and the derived constructions never fail on such sequences. *)
Theorem C01_derived_constructions_total : forall X (s : seq X),
  obtainable s ->
  (forall d, exists s', shift_timestamps s d = Ok s') /\
  (forall Y (f : X -> option Y), exists s', transform_values f s = Ok s') /\
  (forall a b, a <= b -> exists s', get_subsequence s a b = Ok s').
Proof.
  intros X s H. apply obtainable_WF in H. split; [|split].
  - intro d. destruct (shift_spec s d H) as (s' & E & _). eauto.
  - intros Y f. destruct (transform_spec f s H) as (s' & E & _). eauto.
  - intros a b L. destruct (subseq_spec s a b H L) as (s' & E & _). eauto.
Qed.

Example C01_ex_obtainable : exists s s' : seq nat,
  new_seq true [qz 1; qz 2; qz 4] [7; 8; 9]%nat = Ok s /\ get_subsequence s (qz 2) (qz 5) = Ok s' /\
  obtainable s' /\ vals s' = [8; 9]%nat.
Proof.
  eexists (mkSeq [qz 1; qz 2; qz 4] [7; 8; 9]%nat true), (mkSeq [qz 2; qz 4] [8; 9]%nat true).
  split; [vm_compute; reflexivity|]. split; [vm_compute; reflexivity|]. split; [|reflexivity].
  apply (ob_new nat true [qz 2; qz 4] [8; 9]%nat). vm_compute. reflexivity.
Qed.

(** The full claim (for *every* Python number) is false: the check [dt <= 0]
    is false for NaN, so a sequence that goes back in time is accepted when a
    NaN stands in between; likewise two equal infinite timestamps. *)
Theorem C01_nan_timestamps_refuted :
  exists (ts : list stamp) (a b : Qc),
    ctor true ts [1; 2; 3]%nat = Ok (ts, [1; 2; 3]%nat) /\
    nth_error ts 0 = Some (SFlt (Fin a)) /\ nth_error ts 2 = Some (SFlt (Fin b)) /\ b < a.
Proof.
  exists [SFlt (Fin (qz 5)); SFlt NaN; SFlt (Fin (qz 1))], (qz 5), (qz 1). vm_compute. repeat split.
Qed.

Theorem C01_inf_timestamps_refuted :
  ctor true [SFlt PInf; SFlt PInf] [1; 2]%nat = Ok ([SFlt PInf; SFlt PInf], [1; 2]%nat).
Proof.
  reflexivity.
Qed.

(** ** C02 *)

(** [at t] returns the value stored at [t], and raises UndefinedAtTime exactly
    when no sample is stamped [t]. *)
Theorem C02_at_exact_lookup : forall X (s : seq X) t, obtainable s ->
  (forall v, at_ s t = Ok v <-> In (t, v) (iter s)) /\
  (at_ s t = Err UndefinedAtTime <-> ~ In t (tss s)) /\
  (forall e, at_ s t = Err e -> e = UndefinedAtTime).
Proof.
  intros X s t H. apply obtainable_WF in H as W. split; [|split].
  - intro v. rewrite (at_some s t v W). split.
    + intros (i & H1 & H2). apply (nth_error_In _ i). apply nth_error_combine. auto.
    + intro Hin. apply In_nth_error in Hin as [i Hi]. apply nth_error_combine in Hi. eauto.
  - symmetry. apply at_err; exact W.
  - intros e He. destruct (in_dec Qc_eq_dec t (tss s)) as [C|C].
    + apply In_nth_error in C as [i Hi].
      destruct (nth_error_same_len _ (vals s) _ _ (proj1 W) Hi) as [v Hv].
      assert (at_ s t = Ok v) by (apply at_some; [exact W|eauto]). congruence.
    + apply (at_err s t W) in C. congruence.
Qed.

Example C02_ex : let s := mkSeq [qz 1; qf 5 2; qz 4] [7; 8; 9]%nat true in
  at_ s (qf 5 2) = Ok 8%nat /\ at_ s (qz 2) = Err UndefinedAtTime.
Proof. vm_compute. auto. Qed.

(** ** C03 *)

(** Zero-order hold. [is_prev_sample s t v] says that [v] is the value of the
    last sample stamped at or before [t]. *)
Theorem C03_at_or_previous_zero_order_hold : forall X (s : seq X) t, obtainable s ->
  (forall v, at_or_previous s t = Ok v <-> is_prev_sample s t v) /\
  (forall t0, get_start s = Ok t0 -> t < t0 -> at_or_previous s t = Err UndefinedAtTime) /\
  (forall t0, get_start s = Ok t0 -> t0 <= t -> exists v, at_or_previous s t = Ok v) /\
  (tss s = [] -> at_or_previous s t = Err ZValueError).
Proof.
  intros X s t H. apply obtainable_WF in H as W. split; [|split; [|split]].
  - intro v. apply aop_ok; exact W.
  - intros t0 Hs L. pose proof (aop_spec s t W) as A. unfold get_start in Hs.
    destruct (tss s); [discriminate|]. injection Hs as <-. apply qltb_lt in L. rewrite L in A. exact A.
  - intros t0 Hs L. pose proof (aop_spec s t W) as A. unfold get_start in Hs.
    destruct (tss s); [discriminate|]. injection Hs as <-. apply qltb_ge in L. rewrite L in A.
    destruct A as (v & A & _). eauto.
  - intro E. pose proof (aop_spec s t W) as A. rewrite E in A. exact A.
Qed.

Example C03_ex : let s := mkSeq [qz 1; qf 5 2; qz 4] [7; 8; 9]%nat true in
  at_or_previous s (qf 5 2) = Ok 8%nat /\ at_or_previous s (qz 3) = Ok 8%nat /\
  at_or_previous s (qz 9) = Ok 9%nat /\ at_or_previous s 0 = Err UndefinedAtTime.
Proof. vm_compute. auto. Qed.

(** ** C04 *)

(** Interpolation is total on non-empty sequences and given by the contract
    [interp_rel], which determines the result; for any value type with [*] and
    [+]. *)
Theorem C04_at_interp_contract : forall X (mulX : X -> Qc -> X) (addX : X -> X -> X) (s : seq X) t,
  obtainable s ->
  (tss s <> [] -> exists v, at_interp mulX addX s t = Ok v) /\
  (forall v, at_interp mulX addX s t = Ok v <-> interp_rel mulX addX s t v).
Proof.
  intros X mulX addX s t H. apply obtainable_WF in H as W. split.
  - intro N. destruct (at_interp_spec mulX addX s t W N) as (v & E & _). eauto.
  - intro v. destruct (tss s) as [|t0 r] eqn:Et.
    + split.
      * unfold at_interp, get_start. rewrite Et. discriminate.
      * intro R. inversion R as [p x A1 A2 A3|p x A1 A2 A3 A4|i ta tb va vb A1]; subst; exfalso.
        -- rewrite Et in A1; discriminate.
        -- unfold last_of in A1; rewrite Et in A1; discriminate.
        -- rewrite Et in A1. destruct i; discriminate.
    + assert (N : tss s <> []) by congruence.
      destruct (at_interp_spec mulX addX s t W N) as (w & E & R). split.
      * intro F. congruence.
      * intro F. rewrite E. f_equal. eapply interp_rel_fun; eassumption.
Qed.

(** On numbers: ends are held; at a stamp the stored value is returned; between
    two consecutive samples the result lies on the chord and between the two
    values. *)
Theorem C04_at_interp_numbers : forall (s : seq Qc) t, obtainable s ->
  (forall t0 v0, nth_error (iter s) 0 = Some (t0, v0) -> t <= t0 -> interpQ s t = Ok v0) /\
  (forall t1 v1, last_of (iter s) = Some (t1, v1) -> t1 <= t -> interpQ s t = Ok v1) /\
  (forall v, In (t, v) (iter s) -> interpQ s t = Ok v) /\
  (forall t0 v0 t1 v1, adjacent s t0 v0 t1 v1 -> t0 <= t <= t1 ->
     exists v, interpQ s t = Ok v /\
       v = v0 + (v1 - v0) * (t - t0) / (t1 - t0) /\
       qmin v0 v1 <= v <= qmax v0 v1).
Proof.
  intros s t H. apply obtainable_WF in H as W. pose proof W as [Hl Hi].
  assert (Chord : forall t0 v0 t1 v1, adjacent s t0 v0 t1 v1 -> t0 <= t <= t1 ->
     interpQ s t = Ok (v0 + (v1 - v0) * (t - t0) / (t1 - t0))).
  { intros t0 v0 t1 v1 (i & A0 & A1) [L0 L1].
    apply nth_error_combine in A0 as [A0 B0], A1 as [A1 B1]. cbn [fst snd it_t0 it_t1 it_dt it_v0 it_v1] in *.
    assert (T01 : t0 < t1) by (eapply (Inc_nth _ Hi i (S i)); [lia|eassumption..]).
    apply (proj2 (C04_at_interp_contract _ _ _ s t H)).
    destruct (Qcle_lt_or_eq _ _ L1) as [L1'| ->].
    - destruct (Qcle_lt_or_eq _ _ L0) as [L0'| ->].
      + rewrite <- interpQ_chord by exact T01. eapply ir_inside; eauto.
      + destruct i as [|i].
        * replace (v0 + (v1 - v0) * (t - t) / (t1 - t)) with v0 by (field; intro C; qlra).
          eapply ir_before; [exact A0|apply Qcle_refl|exact B0].
        * rewrite <- interpQ_chord by exact T01. eapply ir_inside; eauto.
    - replace (v0 + (v1 - v0) * (t1 - t0) / (t1 - t0)) with v1 by (field; intro C; qlra).
      destruct (nth_error (tss s) (S (S i))) as [t2|] eqn:E2.
      + destruct (nth_error_same_len _ (vals s) _ _ Hl E2) as [v2 F2].
        assert (T12 : t1 < t2) by (eapply (Inc_nth _ Hi (S i) (S (S i))); [lia|eassumption..]).
        replace v1 with (v1 * (1 - (t1 - t1) / (t2 - t1)) + v2 * ((t1 - t1) / (t2 - t1)))
          by (field; intro C; qlra).
        eapply ir_inside; eauto using Qcle_refl.
      + assert (Hlen : (length (tss s) - 1 = S i)%nat).
        { apply nth_error_None in E2. assert (S i < length (tss s))%nat by (apply nth_error_Some; congruence). lia. }
        eapply ir_after; [unfold last_of; rewrite Hlen; exact A1|apply Qcle_refl|
          unfold last_of; rewrite <- Hl, Hlen; exact B1|].
        intro C. pose proof (Inc_inj _ _ _ _ Hi C A1). discriminate. }
  split; [|split; [|split]].
  - intros t0 v0 A L. apply nth_error_combine in A as [A B]. cbn [fst snd it_t0 it_t1 it_dt it_v0 it_v1] in *.
    apply (proj2 (C04_at_interp_contract _ _ _ s t H)). eapply ir_before; eassumption.
  - intros t1 v1 A L. unfold last_of in A. rewrite iter_length in A by exact W.
    apply nth_error_combine in A as [A B]. cbn [fst snd it_t0 it_t1 it_dt it_v0 it_v1] in *.
    apply (proj2 (C04_at_interp_contract _ _ _ s t H)).
    destruct (nth_error (tss s) 0) as [t0|] eqn:E0.
    2:{ apply nth_error_None in E0. exfalso. assert (length (tss s) - 1 < length (tss s))%nat by (apply nth_error_Some; congruence). lia. }
    destruct (Qc_eq_dec t0 t) as [->|N].
    + (* single sample queried at its stamp *)
      assert (Hle : t1 = t).
      { apply Qcle_antisym; [exact L|].
        eapply (Inc_le_nth _ 0 (length (tss s) - 1)); [exact Hi|exact E0|exact A|lia]. }
      subst t1. pose proof (Inc_inj _ _ _ _ Hi A E0) as Z. rewrite Z in B.
      eapply ir_before; [exact E0|apply Qcle_refl|exact B].
    + eapply ir_after; [exact A|exact L|unfold last_of; rewrite <- Hl; exact B|congruence].
  - intros v Hin. apply In_nth_error in Hin as [i Hin].
    destruct (nth_error (iter s) (S i)) as [[t1 v1]|] eqn:E.
    + rewrite (Chord t v t1 v1); [|exists i; auto|].
      * f_equal. apply nth_error_combine in Hin as [A _], E as [B _]. cbn [fst snd it_t0 it_t1 it_dt it_v0 it_v1] in *.
        assert (t < t1) by (eapply (Inc_nth _ Hi i (S i)); [lia|eassumption..]).
        field. intro C; qlra.
      * apply nth_error_combine in Hin as [A _], E as [B _]. cbn [fst snd it_t0 it_t1 it_dt it_v0 it_v1] in *.
        assert (t < t1) by (eapply (Inc_nth _ Hi i (S i)); [lia|eassumption..]).
        split; [apply Qcle_refl|apply Qclt_le_weak; assumption].
    + destruct i as [|i].
      * apply nth_error_combine in Hin as [A B]. cbn [fst snd it_t0 it_t1 it_dt it_v0 it_v1] in *.
        apply (proj2 (C04_at_interp_contract _ _ _ s t H)). eapply ir_before; [exact A|apply Qcle_refl|exact B].
      * destruct (nth_error (iter s) i) as [[t0 v0]|] eqn:E0.
        -- rewrite (Chord t0 v0 t v); [|exists i; auto|].
           ++ f_equal. apply nth_error_combine in Hin as [A _], E0 as [B _]. cbn [fst snd it_t0 it_t1 it_dt it_v0 it_v1] in *.
              assert (t0 < t) by (eapply (Inc_nth _ Hi i (S i)); [lia|eassumption..]).
              field. intro C; qlra.
           ++ apply nth_error_combine in Hin as [A _], E0 as [B _]. cbn [fst snd it_t0 it_t1 it_dt it_v0 it_v1] in *.
              assert (t0 < t) by (eapply (Inc_nth _ Hi i (S i)); [lia|eassumption..]).
              split; [apply Qclt_le_weak; assumption|apply Qcle_refl].
        -- apply nth_error_None in E0. assert (S i < length (iter s))%nat by (apply nth_error_Some; congruence). lia.
  - intros t0 v0 t1 v1 Hadj HL. pose proof Hadj as (i & A0 & A1).
    apply nth_error_combine in A0 as [A0 B0], A1 as [A1 B1]. cbn [fst snd it_t0 it_t1 it_dt it_v0 it_v1] in *.
    assert (T01 : t0 < t1) by (eapply (Inc_nth _ Hi i (S i)); [lia|eassumption..]).
    exists (v0 + (v1 - v0) * (t - t0) / (t1 - t0)).
    split; [apply Chord; assumption|]. split; [reflexivity|].
    assert (Fr : 0 <= (t - t0) / (t1 - t0) /\ (t - t0) / (t1 - t0) <= 1).
    { destruct HL as [L0 L1]. destruct (Qcle_lt_or_eq _ _ L1) as [L1'| ->].
      - destruct (frac_bounds t0 t1 t T01 L0 L1') as [P Q]. split; [exact P|apply Qclt_le_weak; exact Q].
      - replace ((t1 - t0) / (t1 - t0)) with 1 by (field; intro C; qlra). split; [discriminate|apply Qcle_refl]. }
    replace ((v1 - v0) * (t - t0) / (t1 - t0)) with ((v1 - v0) * ((t - t0) / (t1 - t0)))
      by (field; intro C; qlra).
    set (x := (t - t0) / (t1 - t0)) in *. destruct Fr as [X0 X1].
    unfold qmin, qmax. destruct (qltb_spec v1 v0) as [C|C], (qltb_spec v0 v1) as [D|D]; split; qnra.
Qed.

Example C04_ex : let s := mkSeq [qz 1; qz 2; qz 4] [qz 10; qz 20; qz 0] true in
  interpQ s (qf 3 2) = Ok (qz 15) /\ interpQ s (qz 3) = Ok (qz 10) /\ interpQ s (qz 9) = Ok 0 /\
  interpQ s 0 = Ok (qz 10) /\ interpQ s (qz 2) = Ok (qz 20) /\ obtainable s /\
  adjacent s (qz 2) (qz 20) (qz 4) (qz 0).
Proof.
  repeat (split; [vm_compute; reflexivity|]). split.
  - apply (ob_new _ true [qz 1; qz 2; qz 4] [qz 10; qz 20; qz 0]). vm_compute. reflexivity.
  - exists 1%nat. split; reflexivity.
Qed.

(** ** C05 *)

Theorem C05_subsequence_is_closed_window : forall X (s : seq X) a b, obtainable s ->
  (a <= b -> exists s', get_subsequence s a b = Ok s' /\
     iter s' = filter (fun p => qleb a (fst p) && qleb (fst p) b) (iter s) /\
     length (tss s') = length (vals s')) /\
  (b < a -> get_subsequence s a b = Err PyAssertionError).
Proof.
  intros X s a b H. apply obtainable_WF in H as W. split.
  - intro L. destruct (subseq_spec s a b W L) as (s' & E & W' & _ & I & _).
    exists s'. split; [exact E|]. split; [exact I|apply W'].
  - intro L. unfold get_subsequence. apply qleb_gt in L. rewrite L. reflexivity.
Qed.

(** In terms of membership: a sample is in the window iff its timestamp is in
    [[a,b]]. *)
Theorem C05_subsequence_membership : forall X (s s' : seq X) a b, obtainable s ->
  get_subsequence s a b = Ok s' ->
  forall t v, In (t, v) (iter s') <-> In (t, v) (iter s) /\ a <= t <= b.
Proof.
  intros X s s' a b H E t v. destruct (C05_subsequence_is_closed_window X s a b H) as [P Q].
  destruct (Qclt_le_dec b a) as [L|L]; [rewrite (Q L) in E; discriminate|].
  destruct (P L) as (s2 & E2 & I & _). rewrite E in E2; injection E2 as <-. rewrite I, filter_In. cbn.
  rewrite andb_true_iff, !qleb_le. reflexivity.
Qed.

Example C05_ex : let s := mkSeq [qz 1; qz 2; qz 4; qz 5] [6; 7; 8; 9]%nat true in
  rmap (@iter nat) (get_subsequence s (qz 2) (qz 4)) = Ok [(qz 2, 7); (qz 4, 8)]%nat /\
  rmap (@iter nat) (get_subsequence s (qf 5 2) (qz 3)) = Ok [] /\
  get_subsequence s (qz 3) (qz 2) = Err PyAssertionError.
Proof. vm_compute. auto. Qed.

(** ** C06 *)

Theorem C06_shift_is_time_translation : forall X (s : seq X) d, obtainable s ->
  exists s', shift_timestamps s d = Ok s' /\
    iter s' = map (fun p => (fst p + d, snd p)) (iter s) /\
    (forall t, at_ s' (t + d) = at_ s t) /\
    (forall t, at_or_previous s' (t + d) = at_or_previous s t) /\
    (forall mulX addX t, at_interp mulX addX s' (t + d) = at_interp mulX addX s t) /\
    (forall a b, a <= b -> exists w w', get_subsequence s a b = Ok w /\
        get_subsequence s' (a + d) (b + d) = Ok w' /\
        iter w' = map (fun p => (fst p + d, snd p)) (iter w)).
Proof.
  intros X s d H. apply obtainable_WF in H as W.
  destruct (shift_spec s d W) as (s' & E & W' & _ & T & V). exists s'. split; [exact E|].
  split.
  { unfold iter. rewrite T, V. clear. generalize (vals s). induction (tss s) as [|t r IH]; intros [|v vs]; cbn; try reflexivity.
    f_equal. apply IH. }
  split; [intro t; apply at_shift; assumption|].
  split; [intro t; apply aop_shift; assumption|].
  split; [intros; apply at_interp_shift; assumption|].
  intros a b L. destruct (subseq_spec s a b W L) as (w & Ew & _ & _ & Iw & _).
  destruct (subseq_spec s' (a + d) (b + d) W' ltac:(qlra)) as (w' & Ew' & _ & _ & Iw' & _).
  exists w, w'. split; [exact Ew|]. split; [exact Ew'|]. rewrite Iw, Iw'.
  apply window_shift; assumption.
Qed.

Theorem C06_shift_back_is_identity : forall X (s s1 s2 : seq X) d, obtainable s ->
  shift_timestamps s d = Ok s1 -> shift_timestamps s1 (- d) = Ok s2 ->
  tss s2 = tss s /\ vals s2 = vals s.
Proof.
  intros X s s1 s2 d H E1 E2. unfold shift_timestamps in *.
  apply new_seq_inv in E1 as (_ & _ & ->). apply new_seq_inv in E2 as (_ & _ & ->). cbn.
  split; [|reflexivity]. rewrite map_map. rewrite <- map_id. apply map_ext. intro t. ring.
Qed.

Example C06_ex : let s := mkSeq [qz 1; qz 2; qz 4] [7; 8; 9]%nat true in
  rmap (@iter nat) (shift_timestamps s (qf 1 2)) = Ok [(qf 3 2, 7); (qf 5 2, 8); (qf 9 2, 9)]%nat.
Proof. vm_compute. reflexivity. Qed.

(** ** C07 *)

(** Exactly the samples with a defined image, in the original (time) order. *)
Theorem C07_transform_keeps_defined_images : forall X Y (f : X -> option Y) (s : seq X), obtainable s ->
  exists s', transform_values f s = Ok s' /\
    (forall t y, In (t, y) (iter s') <-> exists v, In (t, v) (iter s) /\ f v = Some y) /\
    StronglySorted Qclt (tss s') /\ length (tss s') = length (vals s').
Proof.
  intros X Y f s H. apply obtainable_WF in H as W.
  destruct (transform_spec f s W) as (s' & E & W' & _ & I). exists s'. split; [exact E|].
  split; [|split; apply W']. intros t y. rewrite I. unfold keep. rewrite in_flat_map. split.
  - intros ([t' v] & Hin & Hf). destruct (f v) as [y'|] eqn:F; [|destruct Hf].
    destruct Hf as [Hf|[]]. injection Hf as -> ->. eauto.
  - intros (v & Hin & F). exists (t, v). split; [exact Hin|]. rewrite F. left; reflexivity.
Qed.

(** For a total function timestamps are unchanged and values are mapped; two
    transforms compose. *)
Theorem C07_transform_total_function : forall X Y Z (g : X -> Y) (h : Y -> Z) (s : seq X), obtainable s ->
  exists s1 s2 s3,
    transform_values (fun x => Some (g x)) s = Ok s1 /\
    transform_values (fun y => Some (h y)) s1 = Ok s2 /\
    transform_values (fun x => Some (h (g x))) s = Ok s3 /\
    tss s1 = tss s /\ vals s1 = map g (vals s) /\ s2 = s3.
Proof.
  intros X Y Z g h s H. apply obtainable_WF in H as W.
  assert (K : forall A B (f : A -> B) (l : list (Qc * A)),
    keep (fun x => Some (f x)) l = map (fun p => (fst p, f (snd p))) l).
  { intros A B f l. induction l as [|[t v] r IH]; cbn; [reflexivity|]. f_equal. exact IH. }
  assert (U : forall A B (f : A -> B) (q : seq A), WF q ->
    transform_values (fun x => Some (f x)) q = Ok (mkSeq (tss q) (map f (vals q)) true)).
  { intros A B f q Wq. destruct (transform_spec (fun x => Some (f x)) q Wq) as (q' & E & W' & Ty & I).
    rewrite E. f_equal. rewrite K in I. destruct q' as [ts' vs' ty']. cbn in Ty; subst ty'.
    f_equal.
    - pose proof (iter_fst _ W') as A1. rewrite I, map_map in A1. cbn [tss] in A1.
      rewrite <- A1. exact (iter_fst q Wq).
    - pose proof (iter_snd _ W') as A1. rewrite I, map_map in A1. cbn [vals] in A1.
      rewrite <- A1, <- (iter_snd q Wq), map_map. reflexivity. }
  assert (W1 : WF (mkSeq (tss s) (map g (vals s)) true)).
  { destruct W as [W1 W2]. split; cbn; [rewrite map_length; exact W1|exact W2]. }
  exists (mkSeq (tss s) (map g (vals s)) true), (mkSeq (tss s) (map h (map g (vals s))) true),
    (mkSeq (tss s) (map (fun x => h (g x)) (vals s)) true).
  split; [apply U; exact W|]. split; [apply (U _ _ h _ W1)|]. split; [apply U; exact W|].
  split; [reflexivity|]. split; [reflexivity|]. rewrite map_map. reflexivity.
Qed.

Example C07_ex : let s := mkSeq [qz 1; qz 2; qz 4] [7; 8; 9]%nat true in
  rmap (@iter nat) (transform_values (fun v => if (v =? 8)%nat then None else Some (v * 10)%nat) s)
  = Ok [(qz 1, 70); (qz 4, 90)]%nat.
Proof. vm_compute. reflexivity. Qed.

(** ** C08 *)

(** For every history of calls on a fresh builder, what the caller sees is what
    the abstract builder (a list of accepted samples, [spec_step]) shows: [add]
    succeeds iff the time is later than all accepted ones, and [as_sequence]
    always succeeds with exactly the accepted samples in order. *)
Theorem C08_builder_refines_list : forall X (ops : list (bop X)),
  trace b_step b_empty ops = trace spec_step [] ops.
Proof.
  intros X ops. apply b_trace. split; [reflexivity|]. split; [reflexivity|constructor].
Qed.

Example C08_ex : trace (@b_step nat) b_empty
    [BAdd (qz 1) 5; BSnap; BAdd (qz 1) 6; BAdd (qz 3) 7; BAdd (qz 2) 8; BSnap]%nat
  = [BAdded; BSeq [(qz 1, 5)]; BRejected; BAdded; BRejected; BSeq [(qz 1, 5); (qz 3, 7)]]%nat.
Proof. vm_compute. reflexivity. Qed.

(** ** C09 *)

(** [iterate_with_dt] yields exactly the adjacent pairs in order, with positive
    [dt]; the [dt]s add up to the duration. *)
Theorem C09_iterate_adjacent_pairs : forall X (s : seq X), obtainable s -> typed s = true ->
  exists l, iterate_with_dt s = Ok l /\
    length l = (length (tss s) - 1)%nat /\
    (forall i t0 v0 t1 v1, nth_error (iter s) i = Some (t0, v0) -> nth_error (iter s) (S i) = Some (t1, v1) ->
       nth_error l i = Some (mkIt t0 t1 (t1 - t0) v0 v1)) /\
    (forall it, In it l -> 0 < it_dt it) /\
    (forall a b, get_start s = Ok a -> get_end s = Ok b -> qsum (map it_dt l) = b - a).
Proof.
  intros X s H Ty. apply obtainable_WF in H as W. exists (adj (iter s)). split.
  { unfold iterate_with_dt. rewrite Ty. destruct (adj (iter s)); reflexivity. }
  split. { rewrite adj_length, iter_length by exact W. lia. }
  split. { intros i t0 v0 t1 v1 H0 H1. apply adj_nth. exists t0, v0, t1, v1. auto. }
  split. { intros it Hin. apply (adj_pos s it W Hin). }
  intros a b Ha Hb. apply get_start_nth in Ha. apply get_end_nth in Hb.
  destruct (nth_error_same_len _ (vals s) _ _ (proj1 W) Ha) as [va Hva].
  destruct (nth_error_same_len _ (vals s) _ _ (proj1 W) Hb) as [vb Hvb].
  assert (E0 : nth_error (iter s) 0 = Some (a, va)) by (apply nth_error_combine; auto).
  assert (E1 : last_of (iter s) = Some (b, vb)).
  { unfold last_of. rewrite iter_length by exact W. apply nth_error_combine; auto. }
  destruct (iter s) as [|p r]; [discriminate|]. cbn in E0. injection E0 as ->.
  apply (adj_telescope a va r b vb). exact E1.
Qed.

(** A sequence created without a type argument cannot be iterated: reading
    [XT] fails as soon as there is a pair. (Finding.) *)
Theorem C09_untyped_sequence_refuted :
  exists s : seq nat, obtainable s /\ iterate_with_dt s = Err PyAttributeError.
Proof.
  exists (mkSeq [0; 1] [5; 6]%nat false). split; [|reflexivity].
  apply (ob_new _ false [0; 1] [5; 6]%nat). reflexivity.
Qed.

Example C09_ex : let s := mkSeq [qz 1; qz 2; qz 4] [7; 8; 9]%nat true in
  iterate_with_dt s = Ok [mkIt (qz 1) (qz 2) (qz 1) 7 8; mkIt (qz 2) (qz 4) (qz 2) 8 9]%nat.
Proof. vm_compute. reflexivity. Qed.

(** ** C10 *)

(** Running sum. *)
Theorem C10_accumulate_running_sum : forall (s : seq Qc), obtainable s -> typed s = true ->
  exists s', seq_accumulate s = Ok s' /\ tss s' = tss s /\ length (vals s') = length (vals s) /\
    forall k v, nth_error (vals s') k = Some v -> v = qsum (firstn (S k) (vals s)).
Proof.
  intros s H Ty. apply obtainable_WF in H as [Hl Hi]. unfold seq_accumulate. rewrite Ty.
  rewrite new_seq_ok; [|rewrite accumulate_length; exact Hl|exact Hi].
  eexists; split; [reflexivity|]. split; [reflexivity|]. cbn [vals].
  split; [apply accumulate_length|]. intros k v Hk. rewrite accumulate_nth in Hk.
  destruct (nth_error (vals s) k); congruence.
Qed.

(** Running trapezoid integral: the k-th value is the area under the first k+2
    samples and is stamped with the (k+1)-th timestamp; the result can be iterated and
    integrated again. *)
Theorem C10_integrate_running_area : forall (s : seq Qc), obtainable s -> typed s = true ->
  (2 <= length (tss s))%nat ->
  exists s', seq_integrate s = Ok s' /\ typed s' = true /\ tss s' = tl (tss s) /\
    length (vals s') = (length (tss s) - 1)%nat /\
    forall k v, nth_error (vals s') k = Some v -> v = area (firstn (k + 2) (iter s)).
Proof.
  intros s H Ty L. apply obtainable_WF in H as W. apply integrate_area; assumption.
Qed.

(** Degenerate inputs. *)
Theorem C10_integrate_short : forall (s : seq Qc), obtainable s ->
  (tss s = [] -> seq_integrate s = Err PyValueError) /\
  (length (tss s) = 1%nat -> seq_integrate s = Ok s).
Proof.
  intros s H. apply obtainable_WF in H as [Hl Hi]. unfold seq_integrate, seq_len. split.
  - intros ->. reflexivity.
  - intro E. rewrite <- Hl, E. reflexivity.
Qed.

(** Additive in the signal. *)
Theorem C10_integrate_additive : forall ts us vs s1 s2 s3 r1 r2 r3,
  new_seq true ts us = Ok s1 -> new_seq true ts vs = Ok s2 ->
  new_seq true ts (map (fun p => fst p + snd p) (combine us vs)) = Ok s3 ->
  (2 <= length ts)%nat ->
  seq_integrate s1 = Ok r1 -> seq_integrate s2 = Ok r2 -> seq_integrate s3 = Ok r3 ->
  vals r3 = map (fun p => fst p + snd p) (combine (vals r1) (vals r2)).
Proof.
  intros ts us vs s1 s2 s3 r1 r2 r3 N1 N2 N3 L E1 E2 E3.
  pose proof (new_seq_WF _ _ _ _ N1) as W1. pose proof (new_seq_WF _ _ _ _ N2) as W2.
  pose proof (new_seq_WF _ _ _ _ N3) as W3.
  apply new_seq_inv in N1 as (L1 & _ & ->). apply new_seq_inv in N2 as (L2 & _ & ->).
  apply new_seq_inv in N3 as (L3 & _ & ->).
  destruct (integrate_area _ W1 L eq_refl) as (q1 & F1 & _ & _ & P1 & V1). rewrite E1 in F1; injection F1 as <-.
  destruct (integrate_area _ W2 L eq_refl) as (q2 & F2 & _ & _ & P2 & V2). rewrite E2 in F2; injection F2 as <-.
  destruct (integrate_area _ W3 L eq_refl) as (q3 & F3 & _ & _ & P3 & V3). rewrite E3 in F3; injection F3 as <-.
  cbn [tss vals] in *. apply nth_ext with (d := 0) (d' := 0).
  { rewrite P3, map_length, combine_length, P1, P2. lia. }
  intros k Hk.
  assert (K : forall (l : list Qc) m, length l = m -> (k < m)%nat -> nth_error l k = Some (nth k l 0)).
  { intros l m Hm Hlt. apply nth_error_nth'. lia. }
  rewrite P3 in Hk.
  rewrite (V3 k _ (K _ _ P3 Hk)).
  assert (C : nth_error (combine (vals r1) (vals r2)) k = Some (nth k (vals r1) 0, nth k (vals r2) 0)).
  { apply nth_error_combine. split; [apply (K _ _ P1 Hk)|apply (K _ _ P2 Hk)]. }
  assert (D : nth_error (map (fun p => fst p + snd p) (combine (vals r1) (vals r2))) k
    = Some (nth k (vals r1) 0 + nth k (vals r2) 0)) by (rewrite nth_error_map, C; reflexivity).
  apply nth_error_nth with (d := 0) in D. rewrite D.
  rewrite (V1 k _ (K _ _ P1 Hk)), (V2 k _ (K _ _ P2 Hk)).
  unfold iter; cbn [tss vals]. rewrite <- !combine_firstn', firstn_map, <- combine_firstn'.
  apply area_add; rewrite !firstn_length; lia.
Qed.

(** On a constant signal [c] the integral at [t] is [c * (t - start)]. *)
Theorem C10_integrate_constant : forall (s r : seq Qc) c t0 k t v, obtainable s -> typed s = true ->
  (forall x, In x (vals s) -> x = c) -> get_start s = Ok t0 ->
  (2 <= length (tss s))%nat -> seq_integrate s = Ok r ->
  nth_error (iter r) k = Some (t, v) -> v = c * (t - t0).
Proof.
  intros s r c t0 k t v H Ty Hc Hs L E Hk. apply obtainable_WF in H as W.
  destruct (integrate_area s W L Ty) as (r' & E' & _ & T & P & V). rewrite E in E'; injection E' as <-.
  apply nth_error_combine in Hk as [Hk1 Hk2]. cbn [fst snd it_t0 it_t1 it_dt it_v0 it_v1] in *. rewrite (V k v Hk2). rewrite T in Hk1.
  assert (Ht : nth_error (tss s) (S k) = Some t) by (destruct (tss s); [destruct k; discriminate|exact Hk1]).
  apply get_start_nth in Hs.
  destruct (iter s) as [|[a x] l] eqn:Ei.
  { exfalso. pose proof (iter_length s W). rewrite Ei in *. cbn in *. lia. }
  assert (I0 : nth_error (iter s) 0 = Some (a, x)) by (rewrite Ei; reflexivity).
  apply nth_error_combine in I0 as [I0 I1]. cbn [fst snd it_t0 it_t1 it_dt it_v0 it_v1] in *. rewrite Hs in I0; injection I0 as <-.
  assert (x = c) as -> by (apply Hc; eapply nth_error_In; exact I1).
  replace (k + 2)%nat with (S (S k)) by lia. cbn [firstn].
  change (match l with [] => [] | a :: l0 => a :: firstn k l0 end) with (firstn (S k) l).
  apply area_const.
  - constructor; [reflexivity|]. rewrite Forall_forall. intros [b y] Hin.
    assert (Hin2 : In (b, y) (iter s)).
    { rewrite Ei. right. rewrite <- (firstn_skipn (S k) l). apply in_or_app. left. exact Hin. }
    cbn. apply Hc. apply in_combine_r in Hin2. exact Hin2.
  - unfold last_of. cbn [map length fst]. rewrite map_length, firstn_length.
    assert (Ll : length l = (length (tss s) - 1)%nat).
    { pose proof (iter_length s W) as Q. rewrite Ei in Q. cbn in Q. lia. }
    assert (S k < length (tss s))%nat by (apply nth_error_Some; congruence).
    replace (S (Nat.min (S k) (length l)) - 1)%nat with (S k) by lia.
    change (t0 :: map fst (firstn (S k) l)) with (map fst ((t0, c) :: firstn (S k) l)).
    change ((t0, c) :: firstn (S k) l) with (firstn (S (S k)) ((t0, c) :: l)).
    rewrite <- firstn_map. rewrite nth_error_firstn' by lia.
    rewrite <- Ei, iter_fst by exact W. exact Ht.
Qed.

Example C10_ex : let s := mkSeq [qz 1; qz 2; qz 4] [qz 1; qz 3; qz 5] true in
  rmap (@iter Qc) (seq_integrate s) = Ok [(qz 2, qz 2); (qz 4, qz 10)] /\
  rmap (@iter Qc) (seq_accumulate s) = Ok [(qz 1, qz 1); (qz 2, qz 4); (qz 4, qz 9)] /\
  area [(qz 1, qz 1); (qz 2, qz 3); (qz 4, qz 5)] = qz 10.
Proof. vm_compute. auto. Qed.

(** ** C11 *)

(** One chord slope per adjacent pair, stamped strictly inside (the midpoint). *)
Theorem C11_differentiate_slopes : forall (s : seq Qc), obtainable s -> typed s = true -> tss s <> [] ->
  exists s', seq_differentiate s = Ok s' /\ length (iter s') = (length (tss s) - 1)%nat /\
    forall i t0 v0 t1 v1,
      nth_error (iter s) i = Some (t0, v0) -> nth_error (iter s) (S i) = Some (t1, v1) ->
      exists tm d, nth_error (iter s') i = Some (tm, d) /\
        t0 < tm /\ tm < t1 /\ tm - t0 = t1 - tm /\ d * (t1 - t0) = v1 - v0.
Proof.
  intros s H Ty N. apply obtainable_WF in H as W.
  destruct (seq_differentiate_spec s W N Ty) as (s' & E & W' & T & V). exists s'. split; [exact E|].
  split.
  { rewrite iter_length by exact W'. rewrite T, map_length, adj_length, iter_length by exact W. lia. }
  intros i t0 v0 t1 v1 H0 H1.
  assert (A : nth_error (adj (iter s)) i = Some (mkIt t0 t1 (t1 - t0) v0 v1)) by (apply adj_nth; exists t0, v0, t1, v1; auto).
  exists (t0 + (t1 - t0) / qz 2), ((v1 - v0) / (t1 - t0)). split.
  - apply nth_error_combine. cbn [fst snd]. rewrite T, V, !nth_error_map, A. auto.
  - destruct (adj_pos s _ W (nth_error_In _ _ A)) as (_ & L & _). cbn in L.
    destruct (half_between t0 t1 L) as [P Q]. split; [exact P|]. split; [exact Q|]. split.
    + rewrite two_half. qlra.
    + field. intro C; qlra.
Qed.

(** Multiplying the derivative samples by the interval lengths and summing
    gives last minus first value. *)
Theorem C11_differentiate_telescopes : forall (s s' : seq Qc) l t0 v0 t1 v1, obtainable s ->
  seq_differentiate s = Ok s' -> iterate_with_dt s = Ok l ->
  nth_error (iter s) 0 = Some (t0, v0) -> last_of (iter s) = Some (t1, v1) ->
  qsum (map (fun p => fst p * it_dt (snd p)) (combine (vals s') l)) = v1 - v0.
Proof.
  intros s s' l t0 v0 t1 v1 H E I H0 H1. apply obtainable_WF in H as W.
  assert (Hl : l = adj (iter s)).
  { unfold iterate_with_dt in I. destruct (adj (iter s)); [congruence|]. destruct (typed s); congruence. }
  subst l.
  assert (V : vals s' = map (fun it => (it_v1 it - it_v0 it) / it_dt it) (adj (iter s))).
  { unfold seq_differentiate in E. destruct (seq_len s =? 0)%nat; [discriminate|]. rewrite I in E.
    destruct (existsb _ _); [discriminate|]. apply new_seq_inv in E as (_ & _ & ->). reflexivity. }
  rewrite V. rewrite <- (adj_value_telescope (iter s) t0 v0 t1 v1 H0 H1). f_equal.
  assert (G : forall it, In it (adj (iter s)) -> it_dt it <> 0).
  { intros it Hin C. destruct (adj_pos s it W Hin) as [P _]. rewrite C in P. discriminate. }
  revert G. generalize (adj (iter s)). intro al. induction al as [|it r IH]; intro G; cbn; [reflexivity|].
  f_equal; [|apply IH; intros; apply G; right; assumption].
  field. apply G. left; reflexivity.
Qed.

(** The derivative of a straight line is its slope everywhere. *)
Theorem C11_differentiate_line : forall (s s' : seq Qc) m c, obtainable s ->
  (forall t v, In (t, v) (iter s) -> v = m * t + c) -> seq_differentiate s = Ok s' ->
  forall d, In d (vals s') -> d = m.
Proof.
  intros s s' m c H Hline E d Hd. apply obtainable_WF in H as W.
  unfold seq_differentiate in E. destruct (seq_len s =? 0)%nat; [discriminate|].
  destruct (iterate_with_dt s) as [l|] eqn:I; [|discriminate].
  assert (Hl : l = adj (iter s)).
  { unfold iterate_with_dt in I. destruct (adj (iter s)); [congruence|]. destruct (typed s); congruence. }
  subst l. destruct (existsb _ _); [discriminate|]. apply new_seq_inv in E as (_ & _ & ->). cbn in Hd.
  apply in_map_iff in Hd as (it & <- & Hin). destruct (adj_pos s it W Hin) as (P & _ & _).
  apply In_nth_error in Hin as [i Hi]. apply adj_nth in Hi as (t0 & v0 & t1 & v1 & H0 & H1 & ->). cbn [fst snd it_t0 it_t1 it_dt it_v0 it_v1] in *.
  rewrite (Hline t0 v0 (nth_error_In _ _ H0)), (Hline t1 v1 (nth_error_In _ _ H1)).
  field. intro C. rewrite C in P. discriminate.
Qed.

Example C11_ex : let s := mkSeq [qz 1; qz 2; qz 4] [qz 1; qz 3; qz 2] true in
  rmap (@iter Qc) (seq_differentiate s) = Ok [(qf 3 2, qz 2); (qz 3, qf (-1) 2)].
Proof. vm_compute. reflexivity. Qed.

(** ** C12 *)

(** Soundness: every returned time lies in an interval whose end samples are on
    different sides and linear interpolation there hits the level exactly. *)
Theorem C12_crossings_sound : forall (s : seq Qc) level t, obtainable s ->
  In t (find_crossings s level) ->
  exists t0 v0 t1 v1, adjacent s t0 v0 t1 v1 /\
    ((v0 < level /\ level <= v1) \/ (v1 < level /\ level <= v0)) /\
    t0 <= t <= t1 /\ interpQ s t = Ok level /\
    (v0 <> level -> v1 <> level -> t0 < t /\ t < t1).
Proof.
  intros s level t H Hin. apply obtainable_WF in H as W.
  unfold find_crossings in Hin. rewrite crossings_adj in Hin. apply in_flat_map in Hin as (it & Hit & Hin).
  apply cross_of_in in Hin as [C Ht]. destruct (adj_pos s it W Hit) as (_ & L & _).
  destruct (cross_pair level _ _ _ _ L C) as (A & B & D & F). rewrite <- Ht in *.
  apply In_nth_error in Hit as [i Hi]. apply adj_nth in Hi as (t0 & v0 & t1 & v1 & H0 & H1 & ->). cbn [fst snd it_t0 it_t1 it_dt it_v0 it_v1] in *.
  exists t0, v0, t1, v1. split; [exists i; auto|]. split; [exact C|]. split; [auto|]. split; [|exact F].
  destruct (C04_at_interp_numbers s t H) as (_ & _ & _ & Ch).
  destruct (Ch t0 v0 t1 v1 (ex_intro _ i (conj H0 H1)) (conj A B)) as (v & E & Ev & _).
  rewrite E, Ev, D. reflexivity.
Qed.

(** Completeness: every interval with a change of side contributes exactly one
    time, in order; so the result has as many entries as there are changes, and
    is sorted. *)
Theorem C12_crossings_complete : forall (s : seq Qc) level, obtainable s ->
  (forall t0 v0 t1 v1, adjacent s t0 v0 t1 v1 ->
     ((v0 < level /\ level <= v1) \/ (v1 < level /\ level <= v0)) ->
     exists t, In t (find_crossings s level) /\ t0 <= t <= t1) /\
  length (find_crossings s level) =
    length (filter (fun p => xorb (qltb (fst p) level) (qltb (snd p) level))
                   (combine (vals s) (tl (vals s)))) /\
  Sorted Qcle (find_crossings s level).
Proof.
  intros s level H. apply obtainable_WF in H as W. unfold find_crossings. rewrite crossings_adj.
  split; [|split].
  - intros t0 v0 t1 v1 (i & H0 & H1) C.
    assert (A : nth_error (adj (iter s)) i = Some (mkIt t0 t1 (t1 - t0) v0 v1)) by (apply adj_nth; exists t0, v0, t1, v1; auto).
    destruct (adj_pos s _ W (nth_error_In _ _ A)) as (_ & L & _). cbn in L.
    destruct (cross_pair level _ _ _ _ L C) as (P & Q & _).
    eexists. split; [|split; [exact P|exact Q]]. apply in_flat_map. exists (mkIt t0 t1 (t1 - t0) v0 v1).
    split; [eapply nth_error_In; exact A|]. apply cross_of_in. split; [exact C|reflexivity].
  - rewrite <- (iter_snd s W). generalize (iter s). intro l. induction l as [|[t v] r IH]; [reflexivity|].
    destruct r as [|[t' v'] r]; [reflexivity|].
    change (adj ((t, v) :: (t', v') :: r)) with (mkIt t t' (t' - t) v v' :: adj ((t', v') :: r)).
    cbn [flat_map]. rewrite app_length, IH. unfold cross_of; cbn [it_v0 it_v1].
    rewrite !qltb_sub0. cbn [map snd tl combine filter fst].
    destruct (xorb (qltb v level) (qltb v' level)); reflexivity.
  - apply cross_sorted.
    + intros it Hin. apply (adj_pos s it W Hin).
    + intros i a b Ha Hb. apply adj_nth in Ha as (t0 & v0 & t1 & v1 & H0 & H1 & ->).
      apply adj_nth in Hb as (u0 & w0 & u1 & w1 & G0 & G1 & ->). cbn. congruence.
Qed.

Example C12_ex : find_crossings (mkSeq [qz 1; qz 2; qz 3; qz 4; qz 5] [qz 1; 0; 0; qz 1; qz 2] true) (qf 1 2)
  = [qf 3 2; qf 7 2].
Proof. vm_compute. reflexivity. Qed.
