(* Generated from tools/Traj.src by tools/gen_props.py. *)
(** Properties of trajectories and trajectory graphs (planning/trajectory.py). *)
From Coq Require Import QArith Qcanon ZArith List Bool Arith Lia Sorted.
From Verif Require Import Base Num SeqModel SeqSpec SeqProofs SeqProofs2 VehState TrajModel TrajSpec AssocLemmas TrajProofs TrajGraphProofs TrajNx TrajExamples.
Import ListNotations.
Open Scope Qc_scope.
From Verif Require Import TrajMain.

(** ** C14 *)

(** merge accepts exactly the pairs with matching speed and steering at the seam
    whose joined times increase; the result holds exactly the joined samples. *)
Theorem C14_merge_accepts : forall (a b : traj), obtainable a -> obtainable b ->
  (seam_ok a b -> StronglySorted Qclt (map fst (joined a b)) ->
     exists c, merge a b = Ok c /\ iter c = joined a b /\ obtainable c) /\
  (~ seam_ok a b -> merge a b = Err PyAssertionError) /\
  (seam_ok a b -> ~ StronglySorted Qclt (map fst (joined a b)) -> merge a b = Err ZValueError).
Proof. exact C14_merge_accepts_pf. Qed.
Print Assumptions C14_merge_accepts.

(** What a successful merge returns: all samples of [a], then those of [b] but
    the first, in increasing times, from [a]'s start to [b]'s end. *)
Theorem C14_merge_result : forall (a b c : traj), obtainable a -> obtainable b -> merge a b = Ok c ->
  (iter a <> [] -> iter c = iter a ++ tl (iter b) /\ get_start c = get_start a /\
     ((2 <= length (iter b))%nat -> get_end c = get_end b) /\
     ((length (iter b) <= 1)%nat -> get_end c = get_end a)) /\
  (iter a = [] -> iter c = iter b) /\
  StronglySorted Qclt (tss c) /\ length (tss c) = length (vals c).
Proof. exact C14_merge_result_pf. Qed.
Print Assumptions C14_merge_result.

(** When [b] starts with the last sample of [a], nothing is lost. *)
Theorem C14_merge_keeps_everything : forall (a b c : traj) x, obtainable a -> obtainable b ->
  merge a b = Ok c -> last_of (iter a) = Some x -> nth_error (iter b) 0 = Some x ->
  (forall y, In y (iter c) <-> In y (iter a) \/ In y (iter b)) /\
  length (iter c) = (length (iter a) + length (iter b) - 1)%nat.
Proof. exact C14_merge_keeps_everything_pf. Qed.
Print Assumptions C14_merge_keeps_everything.

(** The caller's samples can be lost: [b]'s first sample is dropped even when it
    repeats nothing (here: later in time and elsewhere in space). *)
Theorem C14_merge_keeps_everything_refuted : exists (a b c : traj) x, obtainable a /\ obtainable b /\
  merge a b = Ok c /\ In x (iter b) /\ ~ In x (iter a) /\ ~ In x (iter c).
Proof. exact C14_merge_keeps_everything_refuted_pf. Qed.
Print Assumptions C14_merge_keeps_everything_refuted.

(** Grouping does not matter. *)
Theorem C14_merge_associative : forall (a b c ab bc l r : traj), obtainable a -> obtainable b -> obtainable c ->
  merge a b = Ok ab -> merge b c = Ok bc -> merge ab c = Ok l -> merge a bc = Ok r -> l = r.
Proof. exact C14_merge_associative_pf. Qed.
Print Assumptions C14_merge_associative.

(** merge_unsafe instead requires the end and start times to agree within the
    tolerance; an empty second operand raises IndexError. *)
Theorem C14_merge_unsafe : forall (a b : traj) tol, obtainable a -> obtainable b ->
  (iter a = [] -> exists c, merge_unsafe a b tol = Ok c /\ iter c = iter b) /\
  (forall te, get_end a = Ok te -> iter b = [] -> merge_unsafe a b tol = Err PyIndexError) /\
  (forall te ts, get_end a = Ok te -> get_start b = Ok ts ->
     (qabs (te - ts) <= tol -> StronglySorted Qclt (map fst (iter a ++ tl (iter b))) ->
        exists c, merge_unsafe a b tol = Ok c /\ iter c = iter a ++ tl (iter b)) /\
     (qabs (te - ts) <= tol -> ~ StronglySorted Qclt (map fst (iter a ++ tl (iter b))) ->
        merge_unsafe a b tol = Err ZValueError) /\
     (tol < qabs (te - ts) -> merge_unsafe a b tol = Err PyAssertionError)).
Proof. exact C14_merge_unsafe_pf. Qed.
Print Assumptions C14_merge_unsafe.

Example C14_ex : obtainable tr_a /\ obtainable tr_b /\
  rmap (@iter _) (merge tr_a tr_b) = Ok [(qz 0, st 0); (qz 1, st 1); (qz 2, st 2)] /\
  last_of (iter tr_a) = Some (qz 1, st 1) /\ nth_error (iter tr_b) 0 = Some (qz 1, st 1) /\
  merge tr_a (mkSeq [qz 2] [mkVS 0 0 0 (qz 9) 0] true) = Err PyAssertionError /\
  merge tr_a (mkSeq [qf 1 2; qf 2 3] [st 1; st 2] true) = Err ZValueError /\
  merge_unsafe tr_a tr_far tol_default = Err PyAssertionError.
Proof.
  split; [exact (two_ok 0 0 1 1 eq_refl)|].
  split; [exact (two_ok 1 1 2 2 eq_refl)|].
  repeat split; vm_compute; reflexivity.
Qed.

(** ** C15 *)

(** upsample(n) puts n equally spaced, linearly interpolated samples between
    each two consecutive samples and keeps the originals. *)
Theorem C15_upsample_refines : forall (a : traj) n, obtainable a -> iter a <> [] ->
  exists u, upsample a n = Ok u /\ obtainable u /\
    length (iter u) = ((length (iter a) - 1) * (n + 1) + 1)%nat /\
    (forall i x, nth_error (iter a) i = Some x -> nth_error (iter u) (i * (n + 1)) = Some x) /\
    (forall i j ta va tb vb, (1 <= j <= n)%nat ->
       nth_error (iter a) i = Some (ta, va) -> nth_error (iter a) (S i) = Some (tb, vb) ->
       nth_error (iter u) (i * (n + 1) + j) =
         Some (ta + qn j / qn (n + 1) * (tb - ta), blend (qn j / qn (n + 1)) va vb)).
Proof. exact C15_upsample_refines_pf. Qed.
Print Assumptions C15_upsample_refines.

(** Times increase strictly, the time span is unchanged. *)
Theorem C15_upsample_span : forall (a u : traj) n, obtainable a -> upsample a n = Ok u ->
  StronglySorted Qclt (tss u) /\ get_start u = get_start a /\ get_end u = get_end a.
Proof. exact C15_upsample_span_pf. Qed.
Print Assumptions C15_upsample_span.

(** upsample(0) changes nothing; an empty trajectory raises IndexError. *)
Theorem C15_upsample_0 : forall (a : traj), obtainable a ->
  (iter a <> [] -> exists u, upsample a 0 = Ok u /\ iter u = iter a) /\
  (iter a = [] -> forall n, upsample a n = Err PyIndexError).
Proof. exact C15_upsample_0_pf. Qed.
Print Assumptions C15_upsample_0.

Example C15_ex : rmap (@iter _) (upsample tr_a 1) = Ok [(qz 0, st 0); (qf 1 2, mkVS (qf 1 2) 0 0 (qz 3) 0); (qz 1, st 1)] /\
  rmap (fun u => length (iter u)) (upsample tr_a 4) = Ok 6%nat.
Proof. split; qcompute. Qed.

(** ** C16 *)

(** Computing the commands plan of any trajectory with two or more samples
    raises TypeError: the iteration record is unpacked like a tuple. *)
Theorem C16_commands_plan_refuted : forall (a : traj), obtainable a -> typed a = true -> (2 <= length (iter a))%nat ->
  commands_plan_from_trajectory a = Err PyTypeError.
Proof. exact C16_commands_plan_refuted_pf. Qed.
Print Assumptions C16_commands_plan_refuted.

(** Shorter trajectories give an empty plan. *)
Theorem C16_commands_plan_partial : forall (a : traj), obtainable a -> (length (iter a) <= 1)%nat ->
  exists c, commands_plan_from_trajectory a = Ok c /\ iter c = [].
Proof. exact C16_commands_plan_partial_pf. Qed.
Print Assumptions C16_commands_plan_partial.

Example C16_ex : obtainable tr_a /\ length (iter tr_a) = 2%nat /\ commands_plan_from_trajectory tr_a = Err PyTypeError /\
  rmap (@iter _) (commands_plan_from_trajectory (mkSeq [qz 3] [st 1] true)) = Ok [].
Proof.
  split; [exact (two_ok 0 0 1 1 eq_refl)|].
  repeat split; vm_compute; reflexivity.
Qed.

(** ** C17 *)

(** Effect of add_edge for a trajectory of two or more samples: the source node
    must exist; the target gets the source's generation plus one, the edge its
    data; nothing else changes. *)
Theorem C17_add_edge_effect : forall g (st tr : traj) c t0 v0 t1 v1, built g -> obtainable st ->
  nth_error (iter st) 0 = Some (t0, v0) -> last_of (iter st) = Some (t1, v1) -> (2 <= length (iter st))%nat ->
  let u := Timed t0 v0 in let v := Timed t1 v1 in
  (~ In u (nodes g) -> add_edge g st tr c = Err PyValueError) /\
  (In u (nodes g) -> exists g' k d, add_edge g st tr c = Ok g' /\
     gen_of g u = Some k /\ gen_of g' u = Some k /\ gen_of g' v = Some (S k) /\
     (forall n, n <> v -> gen_of g' n = gen_of g n) /\
     (forall n, In n (nodes g') <-> n = v \/ In n (nodes g)) /\
     aget edge_eqb (g_edges g') (u, v) = Some d /\ ed_transition d = tr /\
     (forall c0, c = Some c0 -> ed_commands d = Some c0) /\
     (forall e, e <> (u, v) -> aget edge_eqb (g_edges g') e = aget edge_eqb (g_edges g) e)).
Proof. exact C17_add_edge_effect_pf. Qed.
Print Assumptions C17_add_edge_effect.

(** Every graph built with the class is acyclic, and every edge goes forward in
    time, so the acyclicity assertion of the enumeration never fails. *)
Theorem C17_always_acyclic : forall g, built g ->
  (forall u l, walk g u u l -> l = [u]) /\
  (forall u v, In (u, v) (edges g) -> In u (nodes g) /\ In v (nodes g) /\
     fst (sample_of u) < fst (sample_of v)) /\
  (forall N, nx_ok N g -> nx_is_dag N g = true).
Proof. exact C17_always_acyclic_pf. Qed.
Print Assumptions C17_always_acyclic.

(** get_trajectory: a shortest node path as a trajectory, ValueError if there is
    none. *)
Theorem C17_get_trajectory : forall N g u v, built g -> nx_ok N g ->
  (forall l, walk g u v l -> exists p tr, get_trajectory N g u v = Ok tr /\ walk g u v p /\
     (forall q, walk g u v q -> (length p <= length q)%nat) /\ iter tr = map sample_of p) /\
  ((forall l, ~ walk g u v l) -> get_trajectory N g u v = Err PyValueError).
Proof. exact C17_get_trajectory_pf. Qed.
Print Assumptions C17_get_trajectory.

(** get_transition: the stored transitions along a shortest path, end to end. *)
Theorem C17_get_transition : forall N g u v, built g -> nx_ok N g -> transitions_span_edges g ->
  (forall l, walk g u v l -> exists p tr, get_transition N g u v = Ok tr /\ walk g u v p /\
     (forall q, walk g u v q -> (length p <= length q)%nat) /\
     iter tr = stitch (map (on_edge g) (hops p))) /\
  ((forall l, ~ walk g u v l) -> get_transition N g u v = Err PyValueError).
Proof. exact C17_get_transition_pf. Qed.
Print Assumptions C17_get_transition.

(** get_all_trajectories on a graph with a single root: one trajectory per leaf,
    each a shortest path from the root. *)
Theorem C17_all_trajectories : forall N g r, built g -> nx_ok N g -> In r (nodes g) ->
  (forall n, In n (nodes g) -> ((forall u, ~ In (u, n) (edges g)) <-> n = r)) ->
  exists ends trs, get_all_trajectories N g = Ok trs /\ NoDup ends /\
    (forall n, In n ends <-> In n (nodes g) /\ forall v, ~ In (n, v) (edges g)) /\
    Forall2 (fun n tr => exists p, walk g r n p /\ (forall q, walk g r n q -> (length p <= length q)%nat) /\
               iter tr = map sample_of p) ends trs.
Proof. exact C17_all_trajectories_pf. Qed.
Print Assumptions C17_all_trajectories.

Theorem C17_all_transitions : forall N g r, built g -> nx_ok N g -> transitions_span_edges g -> In r (nodes g) ->
  (forall n, In n (nodes g) -> ((forall u, ~ In (u, n) (edges g)) <-> n = r)) ->
  exists ends trs, get_all_transitions N g = Ok trs /\ NoDup ends /\
    (forall n, In n ends <-> In n (nodes g) /\ forall v, ~ In (n, v) (edges g)) /\
    Forall2 (fun n tr => exists p, walk g r n p /\ (forall q, walk g r n q -> (length p <= length q)%nat) /\
               iter tr = stitch (map (on_edge g) (hops p))) ends trs.
Proof. exact C17_all_transitions_pf. Qed.
Print Assumptions C17_all_transitions.

(** With no root or several, both enumerations fail the assertion. *)
Theorem C17_needs_one_root : forall N g, built g -> nx_ok N g ->
  ~ (exists r, In r (nodes g) /\ forall n, In n (nodes g) -> ((forall u, ~ In (u, n) (edges g)) <-> n = r)) ->
  get_all_trajectories N g = Err PyAssertionError /\ get_all_transitions N g = Err PyAssertionError.
Proof. exact C17_needs_one_root_pf. Qed.
Print Assumptions C17_needs_one_root.

(** commands_on_trajectory: the commands stored on the edges of a shortest path
    between the trajectory's ends, stamped with the times of their sources. *)
Theorem C17_commands_on_trajectory : forall N g (tr : traj) t0 v0 t1 v1 l, built g -> nx_ok N g -> obtainable tr ->
  nth_error (iter tr) 0 = Some (t0, v0) -> last_of (iter tr) = Some (t1, v1) ->
  (forall e d, aget edge_eqb (g_edges g) e = Some d -> exists c, ed_commands d = Some c) ->
  walk g (Timed t0 v0) (Timed t1 v1) l ->
  exists p cs, commands_on_trajectory N g tr = Ok cs /\ walk g (Timed t0 v0) (Timed t1 v1) p /\
    (forall q, walk g (Timed t0 v0) (Timed t1 v1) q -> (length p <= length q)%nat) /\
    Forall2 (fun h s => fst s = fst (sample_of (fst h)) /\
       exists d, aget edge_eqb (g_edges g) h = Some d /\ ed_commands d = Some (snd s)) (hops p) (iter cs).
Proof. exact C17_commands_on_trajectory_pf. Qed.
Print Assumptions C17_commands_on_trajectory.

(** Not "one per root-to-leaf path": on a diamond there are two such paths but
    one trajectory and one transition. *)
Theorem C17_every_path_refuted : exists g r n p q, built g /\ In r (nodes g) /\
  (forall u, ~ In (u, r) (edges g)) /\ (forall v, ~ In (n, v) (edges g)) /\
  walk g r n p /\ walk g r n q /\ p <> q /\
  forall N, nx_ok N g -> exists tr tn, get_all_trajectories N g = Ok [tr] /\ get_all_transitions N g = Ok [tn].
Proof. exact C17_every_path_refuted_pf. Qed.
Print Assumptions C17_every_path_refuted.

(** A node that is already in the graph does not keep its generation. *)
Theorem C17_generation_kept_refuted : exists g (st : traj) tr c g' n, built g /\ obtainable st /\
  (2 <= length (iter st))%nat /\ add_edge g st tr c = Ok g' /\ gen_of g n = Some 1%nat /\ gen_of g' n = Some 2%nat.
Proof. exact C17_generation_kept_refuted_pf. Qed.
Print Assumptions C17_generation_kept_refuted.

(** commands_on_trajectory does not follow the given trajectory: for the longer of
    two routes it returns the commands of the shorter one. *)
Theorem C17_commands_follow_trajectory_refuted : exists g (tr : traj) p, built g /\ obtainable tr /\
  walk g nA nE p /\ iter tr = map sample_of p /\ length p = 3%nat /\
  forall N, nx_ok N g -> exists cs, commands_on_trajectory N g tr = Ok cs /\ length (iter cs) = 1%nat.
Proof. exact C17_commands_follow_trajectory_refuted_pf. Qed.
Print Assumptions C17_commands_follow_trajectory_refuted.

(** Non-vacuity: the diamond graph with a concrete path search. *)
Example C17_ex : built diamond /\ nx_ok search diamond /\ transitions_span_edges diamond /\
  rmap (map (@iter _)) (get_all_trajectories search diamond) = Ok [[(qz 0, st 0); (qz 1, st 1); (qz 2, st 3)]] /\
  gen_of diamond nD = Some 2%nat.
Proof.
  split; [exact diamond_built|]. split; [apply search_ok; exact diamond_built|]. split; [exact diamond_spans|].
  split; vm_compute; reflexivity.
Qed.
