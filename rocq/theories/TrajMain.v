(* Generated from tools/Traj.src by tools/gen_props.py. *)
(** Properties of trajectories and trajectory graphs (planning/trajectory.py). *)
From Coq Require Import QArith Qcanon ZArith List Bool Arith Lia Sorted.
From Verif Require Import Base Num SeqModel SeqSpec SeqProofs SeqProofs2 VehState TrajModel TrajSpec AssocLemmas TrajProofs TrajGraphProofs TrajNx TrajExamples.
Import ListNotations.
Open Scope Qc_scope.

(** merge accepts exactly the pairs with matching speed and steering at the seam
    whose joined times increase; the result holds exactly the joined samples. *)
Lemma C14_merge_accepts_pf : forall (a b : traj), obtainable a -> obtainable b ->
  (seam_ok a b -> StronglySorted Qclt (map fst (joined a b)) ->
     exists c, merge a b = Ok c /\ iter c = joined a b /\ obtainable c) /\
  (~ seam_ok a b -> merge a b = Err PyAssertionError) /\
  (seam_ok a b -> ~ StronglySorted Qclt (map fst (joined a b)) -> merge a b = Err ZValueError).
Proof.
  intros a b Ha Hb. apply obtainable_WF in Ha as Wa. apply obtainable_WF in Hb as Wb.
  destruct (connectable_spec a b Wa Wb) as (k & Ek & Hk). unfold merge. rewrite Ek. split; [|split].
  - intros S I. rewrite (proj2 Hk S). eexists. split; [apply join_iff; [exact Wa|exact Wb|split; [exact I|reflexivity]]|].
    split; [apply iter_pairs|]. eapply ob_new with (ty := true). apply (proj1 (new_pairs (joined a b))). exact I.
  - intro S. destruct k; [|reflexivity]. exfalso. apply S, Hk. reflexivity.
  - intros S I. rewrite (proj2 Hk S), join_eq by assumption. apply (proj2 (new_pairs (joined a b))). exact I.
Qed.

(** What a successful merge returns: all samples of [a], then those of [b] but
    the first, in increasing times, from [a]'s start to [b]'s end. *)
Lemma C14_merge_result_pf : forall (a b c : traj), obtainable a -> obtainable b -> merge a b = Ok c ->
  (iter a <> [] -> iter c = iter a ++ tl (iter b) /\ get_start c = get_start a /\
     ((2 <= length (iter b))%nat -> get_end c = get_end b) /\
     ((length (iter b) <= 1)%nat -> get_end c = get_end a)) /\
  (iter a = [] -> iter c = iter b) /\
  StronglySorted Qclt (tss c) /\ length (tss c) = length (vals c).
Proof.
  intros a b c Ha Hb H. apply obtainable_WF in Ha as Wa. apply obtainable_WF in Hb as Wb.
  apply merge_iff in H as (_ & I & ->); [|assumption..]. split; [|split; [|split]].
  - intro Ne. rewrite iter_pairs. unfold joined. destruct (iter a) as [|x r] eqn:E; [contradiction|]. rewrite <- E in *.
    split; [reflexivity|].
    assert (Em : tr_is_empty a = false).
    { destruct (tr_is_empty a) eqn:Q; [|reflexivity]. apply (tr_is_empty_iff a Wa) in Q. contradiction. }
    assert (Ft : map fst (iter a ++ tl (iter b)) = tss a ++ tl (tss b)).
    { rewrite map_app, iter_fst by exact Wa. f_equal. rewrite <- (iter_fst b Wb). destruct (iter b); reflexivity. }
    rewrite Ft. destruct (nonempty_lens a Wa Ne) as [Nt _].
    split; [|split].
    + unfold get_start. cbn [tss]. destruct (tss a); [contradiction|reflexivity].
    + intro L. rewrite (iter_length b Wb) in L. destruct (tss b) as [|t0 [|t1 r']] eqn:Et; [cbn in L; lia..|].
      unfold get_end. cbn [tss tl]. rewrite Et.
      replace (tss a ++ t1 :: r') with ((tss a ++ [t1]) ++ r') by (rewrite <- app_assoc; reflexivity).
      rewrite rev_app_distr. change (t0 :: t1 :: r') with ([t0; t1] ++ r'). rewrite (rev_app_distr [t0; t1] r').
      destruct (rev r') eqn:Er; [|reflexivity]. cbn. rewrite rev_app_distr. reflexivity.
    + intro L. rewrite (iter_length b Wb) in L. destruct (tss b) as [|t0 [|t1 r']] eqn:Et; [| |cbn in L; lia];
        unfold get_end; cbn [tss tl]; rewrite app_nil_r; reflexivity.
  - intro E. rewrite iter_pairs. unfold joined. rewrite E. reflexivity.
  - exact I.
  - cbn. rewrite !map_length. reflexivity.
Qed.

(** When [b] starts with the last sample of [a], nothing is lost. *)
Lemma C14_merge_keeps_everything_pf : forall (a b c : traj) x, obtainable a -> obtainable b ->
  merge a b = Ok c -> last_of (iter a) = Some x -> nth_error (iter b) 0 = Some x ->
  (forall y, In y (iter c) <-> In y (iter a) \/ In y (iter b)) /\
  length (iter c) = (length (iter a) + length (iter b) - 1)%nat.
Proof.
  intros a b c x Ha Hb H La Fb. apply obtainable_WF in Ha as Wa. apply obtainable_WF in Hb as Wb.
  apply merge_iff in H as (_ & _ & ->); [|assumption..]. rewrite iter_pairs. unfold joined.
  unfold last_of in La. apply nth_error_In in La as Ia.
  destruct (iter a) as [|y0 r] eqn:E; [destruct Ia|]. rewrite <- E in *.
  destruct (iter b) as [|y1 q]; [discriminate|]. cbn in Fb. injection Fb as ->. cbn [tl]. split.
  - intro y. rewrite in_app_iff. cbn. split; [tauto|]. intros [H|[<-|H]]; auto.
  - rewrite app_length. cbn [length]. lia.
Qed.

(** The caller's samples can be lost: [b]'s first sample is dropped even when it
    repeats nothing (here: later in time and elsewhere in space). *)
Lemma C14_merge_keeps_everything_refuted_pf : exists (a b c : traj) x, obtainable a /\ obtainable b /\
  merge a b = Ok c /\ In x (iter b) /\ ~ In x (iter a) /\ ~ In x (iter c).
Proof.
  exists tr_a, tr_far. exists (mkSeq [qz 0; qz 1; qz 6] [st 0; st 1; st 60] true), (qz 5, st 50).
  split; [exact (two_ok 0 0 1 1 eq_refl)|].
  split; [exact (two_ok 5 50 6 60 eq_refl)|].
  split; [vm_compute; reflexivity|]. split; [left; reflexivity|].
  split; intro C; vm_compute in C; repeat (destruct C as [C|C]; [discriminate C|]); exact C.
Qed.

(** Grouping does not matter. *)
Lemma C14_merge_associative_pf : forall (a b c ab bc l r : traj), obtainable a -> obtainable b -> obtainable c ->
  merge a b = Ok ab -> merge b c = Ok bc -> merge ab c = Ok l -> merge a bc = Ok r -> l = r.
Proof.
  intros a b c ab bc l r Ha Hb Hc E1 E2 E3 E4.
  apply obtainable_WF in Ha as Wa. apply obtainable_WF in Hb as Wb. apply obtainable_WF in Hc as Wc.
  apply merge_iff in E1 as (_ & I1 & E1); [|assumption..]. apply merge_iff in E2 as (_ & I2 & E2); [|assumption..].
  assert (Wab : WF ab). { subst ab. split; cbn; [rewrite !map_length; reflexivity|exact I1]. }
  assert (Wbc : WF bc). { subst bc. split; cbn; [rewrite !map_length; reflexivity|exact I2]. }
  apply merge_iff in E3 as (_ & _ & ->); [|assumption..]. apply merge_iff in E4 as (_ & _ & ->); [|assumption..].
  assert (J1 : iter ab = joined a b) by (subst ab; apply iter_pairs).
  assert (J2 : iter bc = joined b c) by (subst bc; apply iter_pairs).
  assert (J : joined ab c = joined a bc); [|rewrite J; reflexivity].
  unfold joined at 1 2. rewrite J1, J2. unfold joined.
  destruct (iter a) as [|x xs]; [reflexivity|]. cbn [app]. f_equal. rewrite <- app_assoc. f_equal.
  destruct (iter b) as [|y ys]; reflexivity.
Qed.

(** merge_unsafe instead requires the end and start times to agree within the
    tolerance; an empty second operand raises IndexError. *)
Lemma C14_merge_unsafe_pf : forall (a b : traj) tol, obtainable a -> obtainable b ->
  (iter a = [] -> exists c, merge_unsafe a b tol = Ok c /\ iter c = iter b) /\
  (forall te, get_end a = Ok te -> iter b = [] -> merge_unsafe a b tol = Err PyIndexError) /\
  (forall te ts, get_end a = Ok te -> get_start b = Ok ts ->
     (qabs (te - ts) <= tol -> StronglySorted Qclt (map fst (iter a ++ tl (iter b))) ->
        exists c, merge_unsafe a b tol = Ok c /\ iter c = iter a ++ tl (iter b)) /\
     (qabs (te - ts) <= tol -> ~ StronglySorted Qclt (map fst (iter a ++ tl (iter b))) ->
        merge_unsafe a b tol = Err ZValueError) /\
     (tol < qabs (te - ts) -> merge_unsafe a b tol = Err PyAssertionError)).
Proof.
  intros a b tol Ha Hb. apply obtainable_WF in Ha as Wa. apply obtainable_WF in Hb as Wb.
  unfold merge_unsafe. split; [|split].
  - intro E. pose proof (proj2 (tr_is_empty_iff a Wa) E) as Em. rewrite Em.
    eexists. split; [apply join_iff; [exact Wa|exact Wb|split; [|reflexivity]]|rewrite iter_pairs; unfold joined; rewrite E; reflexivity].
    unfold joined. rewrite E, iter_fst by exact Wb. exact (proj2 Wb).
  - intros te Ee Eb. apply get_end_iff in Ee as Ee'.
    destruct (tr_is_empty a) eqn:Em.
    { apply (tr_is_empty_iff a Wa) in Em. apply empty_lens in Em as [Em _]; [|exact Wa]. rewrite Em in Ee'. discriminate. }
    rewrite item_pred_0. unfold last_of. rewrite Ee'. apply empty_lens in Eb as [Eb _]; [|exact Wb]. rewrite Eb. reflexivity.
  - intros te ts Ee Es. apply get_end_iff in Ee as Ee'.
    destruct (tr_is_empty a) eqn:Em.
    { apply (tr_is_empty_iff a Wa) in Em. apply empty_lens in Em as [Em _]; [|exact Wa]. rewrite Em in Ee'. discriminate. }
    rewrite item_pred_0. unfold last_of. rewrite Ee'.
    assert (Gs : item (tss b) 0 = Ok ts). { unfold get_start in Es. unfold item. destruct (tss b); [discriminate|]. injection Es as ->. reflexivity. }
    rewrite Gs.
    assert (J : joined a b = iter a ++ tl (iter b)).
    { unfold joined. destruct (iter a) eqn:E; [|reflexivity]. apply (tr_is_empty_iff a Wa) in E. congruence. }
    split; [|split].
    + intros T I. apply qleb_le in T. rewrite T. rewrite <- J in *.
      eexists. split; [apply join_iff; [exact Wa|exact Wb|split; [exact I|reflexivity]]|apply iter_pairs].
    + intros T I. apply qleb_le in T. rewrite T, join_eq by assumption. rewrite <- J in I.
      apply (proj2 (new_pairs (joined a b))). exact I.
    + intro T. apply qleb_gt in T. rewrite T. reflexivity.
Qed.

(** upsample(n) puts n equally spaced, linearly interpolated samples between
    each two consecutive samples and keeps the originals. *)
Lemma C15_upsample_refines_pf : forall (a : traj) n, obtainable a -> iter a <> [] ->
  exists u, upsample a n = Ok u /\ obtainable u /\
    length (iter u) = ((length (iter a) - 1) * (n + 1) + 1)%nat /\
    (forall i x, nth_error (iter a) i = Some x -> nth_error (iter u) (i * (n + 1)) = Some x) /\
    (forall i j ta va tb vb, (1 <= j <= n)%nat ->
       nth_error (iter a) i = Some (ta, va) -> nth_error (iter a) (S i) = Some (tb, vb) ->
       nth_error (iter u) (i * (n + 1) + j) =
         Some (ta + qn j / qn (n + 1) * (tb - ta), blend (qn j / qn (n + 1)) va vb)).
Proof.
  intros a n Ha Ne. apply obtainable_WF in Ha as W. destruct (nonempty_lens a W Ne) as [Nt _].
  eexists. split; [apply upsample_spec; assumption|].
  assert (Ie : Inc (map fst (expand n (iter a)))). { apply expand_Inc. rewrite iter_fst by exact W. exact (proj2 W). }
  replace (n + 1)%nat with (S n) by lia.
  split; [eapply ob_new with (ty := true); apply (proj1 (new_pairs (expand n (iter a)))); exact Ie|].
  rewrite iter_pairs. split; [apply expand_length; exact Ne|]. split.
  - intros i [t v] H. apply (expand_nth n (iter a) i 0 (Nat.le_0_l n) t v H). reflexivity.
  - intros i j ta va tb vb Hj H1 H2. apply (expand_nth n (iter a) i j (proj2 Hj) ta va H1); [lia|exact H2].
Qed.

(** Times increase strictly, the time span is unchanged. *)
Lemma C15_upsample_span_pf : forall (a u : traj) n, obtainable a -> upsample a n = Ok u ->
  StronglySorted Qclt (tss u) /\ get_start u = get_start a /\ get_end u = get_end a.
Proof.
  intros a u n Ha H. apply obtainable_WF in Ha as W.
  destruct (tss a) as [|t0 r] eqn:Et; [rewrite upsample_empty in H by exact Et; discriminate|].
  assert (Nt : tss a <> []) by (rewrite Et; discriminate). rewrite upsample_spec in H by assumption. injection H as <-.
  assert (Ne : iter a <> []). { intro C. apply empty_lens in C as [C _]; [|exact W]. contradiction. }
  cbn [tss]. split; [apply expand_Inc; rewrite iter_fst by exact W; exact (proj2 W)|].
  assert (F : map fst (iter a) = tss a) by (apply iter_fst; exact W). split.
  - unfold get_start. cbn [tss]. rewrite Et. rewrite Et in F.
    destruct (iter a) as [|[ta va] q]; [discriminate|]. cbn in F. injection F as -> F.
    pose proof (expand_ends n ((t0, va) :: q) (t0, va) eq_refl) as K.
    destruct (expand n ((t0, va) :: q)); [discriminate|]. cbn in K. injection K as ->. reflexivity.
  - destruct (last_of_some (iter a) Ne) as [[t1 v1] L1].
    assert (E1 : get_end a = Ok t1).
    { apply get_end_iff. unfold last_of in L1. rewrite <- F, map_length, nth_error_map, L1. reflexivity. }
    rewrite E1. apply get_end_iff. cbn [tss]. rewrite map_length, nth_error_map, expand_length by exact Ne.
    unfold last_of in L1.
    pose proof (proj1 (expand_nth n (iter a) _ 0 (Nat.le_0_l n) t1 v1 L1) eq_refl) as K.
    rewrite Nat.add_sub.
    rewrite K. reflexivity.
Qed.

(** upsample(0) changes nothing; an empty trajectory raises IndexError. *)
Lemma C15_upsample_0_pf : forall (a : traj), obtainable a ->
  (iter a <> [] -> exists u, upsample a 0 = Ok u /\ iter u = iter a) /\
  (iter a = [] -> forall n, upsample a n = Err PyIndexError).
Proof.
  intros a Ha. apply obtainable_WF in Ha as W. split.
  - intro Ne. destruct (nonempty_lens a W Ne) as [Nt _]. rewrite upsample_spec by assumption.
    eexists. split; [reflexivity|]. rewrite iter_pairs. apply expand_0.
  - intros E n. apply empty_lens in E as [E _]; [|exact W]. apply upsample_empty. exact E.
Qed.

(** Computing the commands plan of any trajectory with two or more samples
    raises TypeError: the iteration record is unpacked like a tuple. *)
Lemma C16_commands_plan_refuted_pf : forall (a : traj), obtainable a -> typed a = true -> (2 <= length (iter a))%nat ->
  commands_plan_from_trajectory a = Err PyTypeError.
Proof.
  intros a Ha Ty L. unfold commands_plan_from_trajectory, iterate_with_dt. cbv zeta.
  pose proof (adj_length (iter a)) as E. destruct (adj (iter a)) as [|x its]; [cbn in E; lia|]. rewrite Ty. reflexivity.
Qed.

(** Shorter trajectories give an empty plan. *)
Lemma C16_commands_plan_partial_pf : forall (a : traj), obtainable a -> (length (iter a) <= 1)%nat ->
  exists c, commands_plan_from_trajectory a = Ok c /\ iter c = [].
Proof.
  intros a Ha L. unfold commands_plan_from_trajectory, iterate_with_dt. cbv zeta.
  pose proof (adj_length (iter a)) as E. destruct (adj (iter a)) as [|x its]; [|cbn in E; lia]. eexists. split; reflexivity.
Qed.

(** Effect of add_edge for a trajectory of two or more samples: the source node
    must exist; the target gets the source's generation plus one, the edge its
    data; nothing else changes. *)
Lemma C17_add_edge_effect_pf : forall g (st tr : traj) c t0 v0 t1 v1, built g -> obtainable st ->
  nth_error (iter st) 0 = Some (t0, v0) -> last_of (iter st) = Some (t1, v1) -> (2 <= length (iter st))%nat ->
  let u := Timed t0 v0 in let v := Timed t1 v1 in
  (~ In u (nodes g) -> add_edge g st tr c = Err PyValueError) /\
  (In u (nodes g) -> exists g' k d, add_edge g st tr c = Ok g' /\
     gen_of g u = Some k /\ gen_of g' u = Some k /\ gen_of g' v = Some (S k) /\
     (forall n, n <> v -> gen_of g' n = gen_of g n) /\
     (forall n, In n (nodes g') <-> n = v \/ In n (nodes g)) /\
     aget edge_eqb (g_edges g') (u, v) = Some d /\ ed_transition d = tr /\
     (forall c0, c = Some c0 -> ed_commands d = Some c0) /\
     (forall e, e <> (u, v) -> aget edge_eqb (g_edges g') e = aget edge_eqb (g_edges g) e)).
Proof.
  intros g st tr c t0 v0 t1 v1 B Ho F L Le u v. apply obtainable_WF in Ho as W. pose proof (built_GI g B) as I.
  rewrite (iter_length st W) in Le. split.
  - intro Nu. destruct (ends_of st W) as (a0 & b0 & a1 & b1 & X1 & X2 & X3 & X4 & X5 & X6 & _).
    { intro C. rewrite C in Le. cbn in Le. lia. }
    rewrite X1 in F. injection F as -> ->. rewrite X2 in L. injection L as -> ->.
    unfold add_edge. rewrite X3, X4, X5, X6. unfold check_node.
    apply has_node_false in Nu. unfold u in Nu. rewrite Nu. reflexivity.
  - intro Hu. destruct (gi_gen g I u Hu) as [k Hk].
    destruct (add_edge_effect g st tr c t0 v0 t1 v1 k I W F L Le Hu Hk) as (d & E & D1 & D2 & Lt).
    eexists _, k, d. split; [exact E|]. split; [exact Hk|].
    assert (Nuv : v <> u) by (intros [= C _]; subst; exact (Qclt_not_eq _ _ Lt eq_refl)).
    pose proof (gen_of_aset g v (S k)) as G. unfold gen_of in G |- *. cbn [g_nodes g_edges] in *.
    split; [|split; [|split; [|split; [|split; [|split; [exact D1|split; [exact D2|]]]]]]].
    + rewrite G. destruct (node_eqb v u) eqn:Q; [apply node_eqb_eq in Q; contradiction|exact Hk].
    + rewrite G. rewrite (proj2 (node_eqb_eq v v) eq_refl). reflexivity.
    + intros n Hn. rewrite G. destruct (node_eqb v n) eqn:Q; [apply node_eqb_eq in Q; congruence|reflexivity].
    + intro n. unfold nodes. cbn [g_nodes]. split.
      * intro H. apply (aset_keys node_eqb node_eqb_eq) in H. exact H.
      * intro H. apply (aset_keys node_eqb node_eqb_eq). exact H.
    + apply (aget_aset_same edge_eqb edge_eqb_eq).
    + intros e He. apply (aget_aset_other edge_eqb edge_eqb_eq). intro C. apply He. symmetry. exact C.
Qed.

(** Every graph built with the class is acyclic, and every edge goes forward in
    time, so the acyclicity assertion of the enumeration never fails. *)
Lemma C17_always_acyclic_pf : forall g, built g ->
  (forall u l, walk g u u l -> l = [u]) /\
  (forall u v, In (u, v) (edges g) -> In u (nodes g) /\ In v (nodes g) /\
     fst (sample_of u) < fst (sample_of v)) /\
  (forall N, nx_ok N g -> nx_is_dag N g = true).
Proof.
  intros g B. pose proof (built_GI g B) as I. split; [|split].
  - intros u l. apply walk_acyclic. exact I.
  - intros u v E. destruct (gi_ends g I _ _ E) as [E1 E2]. split; [exact E1|]. split; [exact E2|]. apply edge_forward in E; [exact E|exact I].
  - intros N O. apply (nxo_dag N g O). intros u l. apply walk_acyclic. exact I.
Qed.

(** get_trajectory: a shortest node path as a trajectory, ValueError if there is
    none. *)
Lemma C17_get_trajectory_pf : forall N g u v, built g -> nx_ok N g ->
  (forall l, walk g u v l -> exists p tr, get_trajectory N g u v = Ok tr /\ walk g u v p /\
     (forall q, walk g u v q -> (length p <= length q)%nat) /\ iter tr = map sample_of p) /\
  ((forall l, ~ walk g u v l) -> get_trajectory N g u v = Err PyValueError).
Proof.
  intros N g u v B O. pose proof (built_GI g B) as I. split.
  - intros l W. destruct (get_trajectory_spec N g u v O I l W) as (p & tr & P1 & P2 & P3 & P4). eauto 8.
  - intro H. destruct (path_of_spec N g u v O I) as (_ & _ & P). unfold get_trajectory. rewrite (P H). reflexivity.
Qed.

(** get_transition: the stored transitions along a shortest path, end to end. *)
Lemma C17_get_transition_pf : forall N g u v, built g -> nx_ok N g -> transitions_span_edges g ->
  (forall l, walk g u v l -> exists p tr, get_transition N g u v = Ok tr /\ walk g u v p /\
     (forall q, walk g u v q -> (length p <= length q)%nat) /\
     iter tr = stitch (map (on_edge g) (hops p))) /\
  ((forall l, ~ walk g u v l) -> get_transition N g u v = Err PyValueError).
Proof.
  intros N g u v B O T. pose proof (built_GI g B) as I. split.
  - intros l W. destruct (get_transition_spec N g u v O I (spans_fits g T) l W) as (p & tr & P1 & P2 & P3 & P4 & P5). eauto 8.
  - intro H. destruct (path_of_spec N g u v O I) as (_ & _ & P). unfold get_transition. rewrite (P H). reflexivity.
Qed.

Lemma roots_single g r : GI g -> In r (nodes g) ->
  (forall n, In n (nodes g) -> ((forall u, ~ In (u, n) (edges g)) <-> n = r)) -> roots g = [r].
Proof.
  intros I Hr H.
  assert (Nd : NoDup (roots g)) by (apply NoDup_filter; exact (gi_nodes g I)).
  assert (M : forall n, In n (roots g) <-> n = r).
  { intro n. rewrite roots_iff. split; [intros [A B]; apply (H n A); exact B|intros ->; split; [exact Hr|apply (H r Hr); reflexivity]]. }
  destruct (roots g) as [|a [|b l]].
  - exfalso. apply (M r). reflexivity.
  - f_equal. apply M. left; reflexivity.
  - exfalso. assert (a = r) by (apply M; left; reflexivity). assert (b = r) by (apply M; right; left; reflexivity).
    subst. inversion Nd as [|? ? Q _]; subst. apply Q. left; reflexivity.
Qed.

(** get_all_trajectories on a graph with a single root: one trajectory per leaf,
    each a shortest path from the root. *)
Lemma C17_all_trajectories_pf : forall N g r, built g -> nx_ok N g -> In r (nodes g) ->
  (forall n, In n (nodes g) -> ((forall u, ~ In (u, n) (edges g)) <-> n = r)) ->
  exists ends trs, get_all_trajectories N g = Ok trs /\ NoDup ends /\
    (forall n, In n ends <-> In n (nodes g) /\ forall v, ~ In (n, v) (edges g)) /\
    Forall2 (fun n tr => exists p, walk g r n p /\ (forall q, walk g r n q -> (length p <= length q)%nat) /\
               iter tr = map sample_of p) ends trs.
Proof.
  intros N g r B O Hr H. pose proof (built_GI g B) as I. pose proof (roots_single g r I Hr H) as Er.
  unfold get_all_trajectories, all_from_root. rewrite (proj2 (proj2 (C17_always_acyclic_pf g B)) N O), Er.
  destruct (Forall2_rmapM (fun t => get_trajectory N g r t)
    (fun n tr => exists p, walk g r n p /\ (forall q, walk g r n q -> (length p <= length q)%nat) /\
               iter tr = map sample_of p) (leaves g)) as (trs & E & F).
  { intros n Hn. apply leaves_iff in Hn as [Hn _]. destruct (unique_root_reaches g r n I Er Hn) as [l W].
    destruct (get_trajectory_spec N g r n O I l W) as (p & tr & P1 & P2 & P3 & P4). exists tr. split; [exact P3|]. eauto. }
  exists (leaves g), trs. split; [exact E|]. split; [apply NoDup_filter; exact (gi_nodes g I)|].
  split; [apply leaves_iff|exact F].
Qed.

Lemma C17_all_transitions_pf : forall N g r, built g -> nx_ok N g -> transitions_span_edges g -> In r (nodes g) ->
  (forall n, In n (nodes g) -> ((forall u, ~ In (u, n) (edges g)) <-> n = r)) ->
  exists ends trs, get_all_transitions N g = Ok trs /\ NoDup ends /\
    (forall n, In n ends <-> In n (nodes g) /\ forall v, ~ In (n, v) (edges g)) /\
    Forall2 (fun n tr => exists p, walk g r n p /\ (forall q, walk g r n q -> (length p <= length q)%nat) /\
               iter tr = stitch (map (on_edge g) (hops p))) ends trs.
Proof.
  intros N g r B O T Hr H. pose proof (built_GI g B) as I. pose proof (roots_single g r I Hr H) as Er.
  unfold get_all_transitions, all_from_root. rewrite (proj2 (proj2 (C17_always_acyclic_pf g B)) N O), Er.
  destruct (Forall2_rmapM (fun t => get_transition N g r t)
    (fun n tr => exists p, walk g r n p /\ (forall q, walk g r n q -> (length p <= length q)%nat) /\
               iter tr = stitch (map (on_edge g) (hops p))) (leaves g)) as (trs & E & F).
  { intros n Hn. apply leaves_iff in Hn as [Hn _]. destruct (unique_root_reaches g r n I Er Hn) as [l W].
    destruct (get_transition_spec N g r n O I (spans_fits g T) l W) as (p & tr & P1 & P2 & P3 & P4 & P5). exists tr. split; [exact P3|]. eauto. }
  exists (leaves g), trs. split; [exact E|]. split; [apply NoDup_filter; exact (gi_nodes g I)|].
  split; [apply leaves_iff|exact F].
Qed.

(** With no root or several, both enumerations fail the assertion. *)
Lemma C17_needs_one_root_pf : forall N g, built g -> nx_ok N g ->
  ~ (exists r, In r (nodes g) /\ forall n, In n (nodes g) -> ((forall u, ~ In (u, n) (edges g)) <-> n = r)) ->
  get_all_trajectories N g = Err PyAssertionError /\ get_all_transitions N g = Err PyAssertionError.
Proof.
  intros N g B O H. pose proof (built_GI g B) as I.
  assert (R : forall r, roots g <> [r]).
  { intros r E. apply H. exists r. assert (Hr : In r (roots g)) by (rewrite E; left; reflexivity).
    split; [apply roots_iff in Hr; tauto|]. intros n Hn. split.
    - intro Q. assert (Hn' : In n (roots g)) by (apply roots_iff; auto). rewrite E in Hn'. destruct Hn' as [->|[]]. reflexivity.
    - intros ->. apply roots_iff in Hr. tauto. }
  unfold get_all_trajectories, get_all_transitions, all_from_root.
  rewrite (proj2 (proj2 (C17_always_acyclic_pf g B)) N O).
  destruct (roots g) as [|a [|b l]]; [split; reflexivity|exfalso; exact (R a eq_refl)|split; reflexivity].
Qed.

(** commands_on_trajectory: the commands stored on the edges of a shortest path
    between the trajectory's ends, stamped with the times of their sources. *)
Lemma C17_commands_on_trajectory_pf : forall N g (tr : traj) t0 v0 t1 v1 l, built g -> nx_ok N g -> obtainable tr ->
  nth_error (iter tr) 0 = Some (t0, v0) -> last_of (iter tr) = Some (t1, v1) ->
  (forall e d, aget edge_eqb (g_edges g) e = Some d -> exists c, ed_commands d = Some c) ->
  walk g (Timed t0 v0) (Timed t1 v1) l ->
  exists p cs, commands_on_trajectory N g tr = Ok cs /\ walk g (Timed t0 v0) (Timed t1 v1) p /\
    (forall q, walk g (Timed t0 v0) (Timed t1 v1) q -> (length p <= length q)%nat) /\
    Forall2 (fun h s => fst s = fst (sample_of (fst h)) /\
       exists d, aget edge_eqb (g_edges g) h = Some d /\ ed_commands d = Some (snd s)) (hops p) (iter cs).
Proof.
  intros N g tr t0 v0 t1 v1 l B O Ho F L Hc W.
  destruct (commands_spec N g tr t0 v0 t1 v1 O (built_GI g B) (obtainable_WF _ _ Ho) F L (fun u v d E => Hc (u, v) d E) l W)
    as (p & cs & P1 & P2 & P3 & P4). eauto 8.
Qed.

(** Not "one per root-to-leaf path": on a diamond there are two such paths but
    one trajectory and one transition. *)
Lemma C17_every_path_refuted_pf : exists g r n p q, built g /\ In r (nodes g) /\
  (forall u, ~ In (u, r) (edges g)) /\ (forall v, ~ In (n, v) (edges g)) /\
  walk g r n p /\ walk g r n q /\ p <> q /\
  forall N, nx_ok N g -> exists tr tn, get_all_trajectories N g = Ok [tr] /\ get_all_transitions N g = Ok [tn].
Proof.
  exists diamond, nA, nD, [nA; nB; nD], [nA; nC; nD].
  split; [exact diamond_built|]. split; [rewrite diamond_nodes; left; reflexivity|].
  split; [intros u C; rewrite diamond_edges in C; repeat (destruct C as [C|C]; [discriminate C|]); exact C|].
  split; [intros u C; rewrite diamond_edges in C; repeat (destruct C as [C|C]; [discriminate C|]); exact C|].
  split; [exact diamond_walk_B|]. split; [exact diamond_walk_C|]. split; [discriminate|].
  intros N O.
  assert (R : forall n, In n (nodes diamond) -> ((forall u, ~ In (u, n) (edges diamond)) <-> n = nA)) by exact diamond_root.
  assert (Hr : In nA (nodes diamond)) by (rewrite diamond_nodes; left; reflexivity).
  assert (U : forall ends, NoDup ends -> (forall n, In n ends <-> In n (nodes diamond) /\ forall v, ~ In (n, v) (edges diamond)) ->
    ends = [nD]).
  { intros ends Nd M. assert (Q : forall n, In n ends <-> n = nD).
    { intro n. rewrite M. apply diamond_leaf. }
    destruct ends as [|a [|b l]].
    - exfalso. apply (Q nD). reflexivity.
    - f_equal. apply Q. left; reflexivity.
    - exfalso. assert (a = nD) by (apply Q; left; reflexivity). assert (b = nD) by (apply Q; right; left; reflexivity).
      subst. inversion Nd as [|? ? X _]; subst. apply X. left; reflexivity. }
  destruct (C17_all_trajectories_pf N diamond nA diamond_built O Hr R) as (e1 & t1 & G1 & N1 & M1 & F1).
  destruct (C17_all_transitions_pf N diamond nA diamond_built O diamond_spans Hr R) as (e2 & t2 & G2 & N2 & M2 & F2).
  rewrite (U e1 N1 M1) in F1. rewrite (U e2 N2 M2) in F2.
  inversion F1 as [|? ? ? ? _ F1']; subst. inversion F1'; subst. inversion F2 as [|? ? ? ? _ F2']; subst. inversion F2'; subst.
  rewrite G1, G2. eauto.
Qed.

(** A node that is already in the graph does not keep its generation. *)
Lemma C17_generation_kept_refuted_pf : exists g (st : traj) tr c g' n, built g /\ obtainable st /\
  (2 <= length (iter st))%nat /\ add_edge g st tr c = Ok g' /\ gen_of g n = Some 1%nat /\ gen_of g' n = Some 2%nat.
Proof.
  exists (mkG [(nA, Some 0%nat); (nB, Some 1%nat); (nE, Some 1%nat)] [((nA, nB), eAB); ((nA, nE), eAE)]).
  exists trBE, trBE, None. eexists. exists nE.
  split; [exact small_built|]. split; [exact trBE_ok|]. split; [vm_compute; repeat constructor|].
  split; [vm_compute; reflexivity|]. split; vm_compute; reflexivity.
Qed.

(** commands_on_trajectory does not follow the given trajectory: for the longer of
    two routes it returns the commands of the shorter one. *)
Lemma C17_commands_follow_trajectory_refuted_pf : exists g (tr : traj) p, built g /\ obtainable tr /\
  walk g nA nE p /\ iter tr = map sample_of p /\ length p = 3%nat /\
  forall N, nx_ok N g -> exists cs, commands_on_trajectory N g tr = Ok cs /\ length (iter cs) = 1%nat.
Proof.
  exists triangle, (mkSeq [qz 0; qz 1; qz 2] [st 0; st 1; st 5] true), [nA; nB; nE].
  split; [exact triangle_built|].
  assert (Ob : obtainable (mkSeq [qz 0; qz 1; qz 2] [st 0; st 1; st 5] true)) by
    (eapply ob_new with (ty := true) (ts := [qz 0; qz 1; qz 2]) (vs := [st 0; st 1; st 5]); vm_compute; reflexivity).
  split; [exact Ob|]. split; [exact triangle_long|]. split; [reflexivity|]. split; [reflexivity|].
  intros N O.
  destruct (C17_commands_on_trajectory_pf N triangle _ (qz 0) (st 0) (qz 2) (st 5) [nA; nE] triangle_built O Ob eq_refl eq_refl
     triangle_cmds triangle_short) as (p & cs & E & W & Sh & F).
  exists cs. split; [exact E|]. specialize (Sh _ triangle_short). cbn in Sh.
  apply Forall2_len in F. rewrite <- F.
  destruct p as [|a [|b [|c p]]]; [inversion W| |reflexivity|cbn in Sh; lia].
  exfalso. inversion W; subst; match goal with H : walk _ _ _ [] |- _ => inversion H end.
Qed.
