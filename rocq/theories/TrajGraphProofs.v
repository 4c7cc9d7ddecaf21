(** Lemmas about TrajectoryGraph. *)
From Coq Require Import QArith Qcanon ZArith List Bool Arith Lia Sorted.
From Verif Require Import Base Num DictLemmas AssocLemmas SeqModel SeqSpec SeqProofs SeqProofs2 VehState TrajModel TrajSpec TrajProofs.
Import ListNotations.
Open Scope Qc_scope.

Lemma vs_eqb_eq a b : vs_eqb a b = true <-> a = b.
Proof.
  unfold vs_eqb. rewrite !andb_true_iff, !qeqb_eq. destruct a, b; cbn. split.
  - intros [[[[-> ->] ->] ->] ->]. reflexivity.
  - intros [= -> -> -> -> ->]. repeat split.
Qed.
Lemma node_eqb_eq a b : node_eqb a b = true <-> a = b.
Proof.
  destruct a as [t s|s], b as [u r|r]; cbn; try (split; discriminate).
  - rewrite andb_true_iff, qeqb_eq, vs_eqb_eq. split; [intros [-> ->]; reflexivity|intros [= -> ->]; auto].
  - rewrite vs_eqb_eq. split; congruence.
Qed.
Lemma edge_eqb_eq a b : edge_eqb a b = true <-> a = b.
Proof.
  destruct a, b. unfold edge_eqb. cbn. rewrite andb_true_iff, !node_eqb_eq. split; [intros [-> ->]; reflexivity|intros [= -> ->]; auto].
Qed.

Lemma has_node_iff g n : has_node g n = true <-> In n (nodes g).
Proof.
  unfold has_node, nodes. rewrite existsb_exists, in_map_iff. split.
  - intros (p & H & E). apply node_eqb_eq in E. eauto.
  - intros (p & E & H). exists p. split; [exact H|]. apply node_eqb_eq. exact E.
Qed.
Lemma has_node_false g n : has_node g n = false <-> ~ In n (nodes g).
Proof. rewrite <- has_node_iff. destruct (has_node g n); split; congruence. Qed.

Lemma add_node_some g n k : add_node g n (Some k) = mkG (aset node_eqb (g_nodes g) n (Some k)) (g_edges g).
Proof. unfold add_node. destruct (has_node g n); reflexivity. Qed.

(** Invariant of built graphs. *)
Record GI (g : graph) : Prop :=
  { gi_nodes : NoDup (nodes g); gi_edges : NoDup (edges g);
    gi_timed : forall n, In n (nodes g) -> exists t s, n = Timed t s;
    gi_gen : forall n, In n (nodes g) -> exists k, gen_of g n = Some k;
    gi_ends : forall u v, In (u, v) (edges g) -> In u (nodes g) /\ In v (nodes g);
    gi_forward : forall t s t' s', In (Timed t s, Timed t' s') (edges g) -> t < t' }.

Lemma gen_of_aset g n k m : gen_of (mkG (aset node_eqb (g_nodes g) n (Some k)) (g_edges g)) m =
  if node_eqb n m then Some k else gen_of g m.
Proof.
  unfold gen_of; cbn [g_nodes]. destruct (node_eqb n m) eqn:E.
  - apply node_eqb_eq in E; subst. rewrite (aget_aset_same node_eqb node_eqb_eq). reflexivity.
  - rewrite (aget_aset_other node_eqb node_eqb_eq); [reflexivity|]. intro C. apply node_eqb_eq in C. congruence.
Qed.

Lemma gi_add_node g t s k : GI g -> GI (add_node g (Timed t s) (Some k)).
Proof.
  intros [I1 I2 I3 I4 I5 I6]. rewrite add_node_some. split; cbn [nodes edges g_nodes g_edges] in *; unfold nodes, edges in *; cbn [g_nodes g_edges].
  - apply (aset_NoDup node_eqb node_eqb_eq). exact I1.
  - exact I2.
  - intros n H. apply (aset_keys node_eqb node_eqb_eq) in H as [->|H]; [eauto|apply I3; exact H].
  - intros n H. rewrite gen_of_aset. destruct (node_eqb (Timed t s) n) eqn:E; [eauto|].
    apply (aset_keys node_eqb node_eqb_eq) in H as [->|H]; [|apply I4; exact H].
    rewrite (proj2 (node_eqb_eq _ _) eq_refl) in E. discriminate.
  - intros u v H. apply I5 in H as [H1 H2]. split; apply (aset_keys node_eqb node_eqb_eq); right; assumption.
  - exact I6.
Qed.

Lemma no_bare g s : GI g -> has_node g (Bare s) = false.
Proof.
  intro I. apply has_node_false. intro C. apply (gi_timed g I) in C as (t & s' & C). discriminate.
Qed.

Lemma nx_add_edge_present g u v tr c : In u (nodes g) -> In v (nodes g) ->
  exists d, nx_add_edge g u v tr c = mkG (g_nodes g) (aset edge_eqb (g_edges g) (u, v) d) /\ ed_transition d = tr /\
    (forall c0, c = Some c0 -> ed_commands d = Some c0).
Proof.
  intros Hu Hv. unfold nx_add_edge. rewrite (proj2 (has_node_iff g u) Hu). cbv zeta.
  rewrite (proj2 (has_node_iff g v) Hv). eexists; split; [reflexivity|].
  destruct (aget edge_eqb (g_edges g) (u, v)); cbn; (split; [reflexivity|]); intros c0 ->; reflexivity.
Qed.

(** First and last sample of a sequence. *)
Lemma ends_of (st : traj) : WF st -> tss st <> [] ->
  exists t0 v0 t1 v1, nth_error (iter st) 0 = Some (t0, v0) /\ last_of (iter st) = Some (t1, v1) /\
    get_start st = Ok t0 /\ get_end st = Ok t1 /\ at_ st t0 = Ok v0 /\ at_ st t1 = Ok v1 /\
    ((2 <= length (tss st))%nat -> t0 < t1).
Proof.
  intros W Ne. pose proof W as [Hl Hi].
  assert (Li : length (iter st) = length (tss st)) by (apply iter_length; exact W).
  assert (Ni : iter st <> []) by (intro C; rewrite C in Li; destruct (tss st); [contradiction|discriminate]).
  destruct (nth_error (iter st) 0) as [[t0 v0]|] eqn:E0; [|destruct (iter st); [contradiction|discriminate]].
  destruct (last_of_some _ Ni) as [[t1 v1] E1].
  exists t0, v0, t1, v1. split; [reflexivity|]. split; [exact E1|].
  pose proof E0 as F0. pose proof E1 as F1. unfold last_of in F1. rewrite Li in F1. unfold iter in F0, F1.
  apply nth_error_combine in F0 as [F0 G0], F1 as [F1 G1]. cbn in F0, G0, F1, G1.
  split; [apply get_start_nth; exact F0|]. split; [apply get_end_iff; exact F1|].
  split; [apply (proj2 (at_some st t0 v0 W)); exists O; auto|].
  split; [apply (proj2 (at_some st t1 v1 W)); exists (length (tss st) - 1)%nat; auto|].
  intro L. eapply (Inc_nth _ Hi 0 (length (tss st) - 1)); [lia|eassumption..].
Qed.

Lemma add_edge_effect g st tr c t0 v0 t1 v1 k : GI g -> WF st ->
  nth_error (iter st) 0 = Some (t0, v0) -> last_of (iter st) = Some (t1, v1) ->
  (2 <= length (tss st))%nat ->
  In (Timed t0 v0) (nodes g) -> gen_of g (Timed t0 v0) = Some k ->
  exists d, add_edge g st tr c = Ok (mkG (aset node_eqb (g_nodes g) (Timed t1 v1) (Some (S k)))
      (aset edge_eqb (g_edges g) (Timed t0 v0, Timed t1 v1) d)) /\ ed_transition d = tr /\
    (forall c0, c = Some c0 -> ed_commands d = Some c0) /\ t0 < t1.
Proof.
  intros I W E0 E1 L Hin Hg.
  assert (Ne : tss st <> []) by (intro C; rewrite C in L; cbn in L; lia).
  destruct (ends_of st W Ne) as (a0 & b0 & a1 & b1 & A1 & A2 & A3 & A4 & A5 & A6 & A7).
  rewrite E0 in A1; injection A1 as <- <-. rewrite E1 in A2; injection A2 as <- <-.
  unfold add_edge. rewrite A3, A4, A5, A6. unfold check_node. rewrite (proj2 (has_node_iff _ _) Hin).
  rewrite (no_bare g v1 I). cbn [negb]. unfold gen_of in Hg.
  destruct (aget node_eqb (g_nodes g) (Timed t0 v0)) as [o|]; [|discriminate]. subst o.
  rewrite add_node_some.
  destruct (nx_add_edge_present (mkG (aset node_eqb (g_nodes g) (Timed t1 v1) (Some (S k))) (g_edges g))
    (Timed t0 v0) (Timed t1 v1) tr c) as (d & Ed & Hd1 & Hd2).
  - apply (aset_keys node_eqb node_eqb_eq). right; exact Hin.
  - apply (aset_keys node_eqb node_eqb_eq). left; reflexivity.
  - exists d. rewrite Ed. cbn [g_nodes g_edges]. repeat split; auto.
Qed.

Lemma add_edge_inv g st tr c g' : GI g -> WF st -> (2 <= length (tss st))%nat ->
  add_edge g st tr c = Ok g' ->
  exists t0 v0 t1 v1 k d, nth_error (iter st) 0 = Some (t0, v0) /\ last_of (iter st) = Some (t1, v1) /\
   In (Timed t0 v0) (nodes g) /\ gen_of g (Timed t0 v0) = Some k /\ t0 < t1 /\
   g' = mkG (aset node_eqb (g_nodes g) (Timed t1 v1) (Some (S k)))
      (aset edge_eqb (g_edges g) (Timed t0 v0, Timed t1 v1) d) /\ ed_transition d = tr.
Proof.
  intros I W L H.
  assert (Ne : tss st <> []) by (intro C; rewrite C in L; cbn in L; lia).
  destruct (ends_of st W Ne) as (t0 & v0 & t1 & v1 & E0 & E1 & A3 & A4 & A5 & A6 & A7).
  destruct (has_node g (Timed t0 v0)) eqn:Hn.
  - apply has_node_iff in Hn. destruct (gi_gen g I _ Hn) as [k Hk].
    destruct (add_edge_effect g st tr c t0 v0 t1 v1 k I W E0 E1 L Hn Hk) as (d & Ed & D1 & D2 & D3).
    rewrite Ed in H. injection H as <-. exists t0, v0, t1, v1, k, d. repeat split; auto.
  - exfalso. unfold add_edge in H. rewrite A3, A4, A5, A6 in H. unfold check_node in H. rewrite Hn in H. discriminate.
Qed.

Lemma gi_add_edge g st tr c g' : GI g -> WF st -> (2 <= length (tss st))%nat ->
  add_edge g st tr c = Ok g' -> GI g'.
Proof.
  intros I W L H. destruct (add_edge_inv _ _ _ _ _ I W L H) as (t0 & v0 & t1 & v1 & k & d & _ & _ & Hin & Hk & Lt & -> & _).
  pose proof (gi_add_node g t1 v1 (S k) I) as J. rewrite add_node_some in J. destruct J as [J1 J2 J3 J4 J5 J6].
  split; unfold nodes, edges in *; cbn [g_nodes g_edges] in *.
  - exact J1.
  - apply (aset_NoDup edge_eqb edge_eqb_eq). exact J2.
  - exact J3.
  - exact J4.
  - intros u v Hu. apply (aset_keys edge_eqb edge_eqb_eq) in Hu as [[= -> ->]|Hu]; [|apply J5; exact Hu].
    split; apply (aset_keys node_eqb node_eqb_eq); [right; exact Hin|left; reflexivity].
  - intros t s t' s' Hu. apply (aset_keys edge_eqb edge_eqb_eq) in Hu as [E|Hu]; [|eapply J6; exact Hu].
    injection E as -> _ -> _. exact Lt.
Qed.

Lemma built_GI g : built g -> GI g.
Proof.
  induction 1 as [|g t s k _ IH|g st tr c g' _ IH O L H].
  - split; cbn; try constructor; intros; contradiction.
  - apply gi_add_node; exact IH.
  - eapply gi_add_edge; [exact IH|apply obtainable_WF; exact O|exact L|exact H].
Qed.

(** *** Paths *)
Definition tm (n : node) : Qc := fst (sample_of n).

Lemma walk_nodes g u v l : GI g -> walk g u v l -> In u (nodes g) /\ In v (nodes g) /\ (forall n, In n l -> In n (nodes g)).
Proof.
  intro I. induction 1 as [u H|u v w l E _ (IH1 & IH2 & IH3)].
  - repeat split; auto. intros n [<-|[]]; exact H.
  - destruct (gi_ends g I _ _ E) as [E1 _]. repeat split; auto. intros n [<-|Hn]; [exact E1|apply IH3; exact Hn].
Qed.

Lemma edge_forward g u v : GI g -> In (u, v) (edges g) -> tm u < tm v.
Proof.
  intros I E. destruct (gi_ends g I _ _ E) as [E1 E2].
  destruct (gi_timed g I _ E1) as (t & s & ->), (gi_timed g I _ E2) as (t' & s' & ->).
  cbn. eapply (gi_forward g I); exact E.
Qed.

Lemma walk_head g u v l : walk g u v l -> nth_error l 0 = Some u /\ last_of l = Some v.
Proof.
  induction 1 as [u H|u v w l E W (IH1 & IH2)]; [split; reflexivity|].
  split; [reflexivity|]. change (u :: l) with ([u] ++ l). rewrite last_of_app; [exact IH2|]. destruct l; discriminate.
Qed.

Lemma walk_Inc g u v l : GI g -> walk g u v l -> Inc (map tm l) /\ Forall (fun x => tm u <= x) (map tm l).
Proof.
  intro I. induction 1 as [u H|u v w l E W (IH1 & IH2)].
  - cbn. split; [constructor; constructor|]. constructor; [apply Qcle_refl|constructor].
  - pose proof (edge_forward g u v I E) as F. cbn [map]. split.
    + constructor; [exact IH1|]. eapply Forall_impl; [|exact IH2]. cbn. intros x Hx. qlra.
    + constructor; [apply Qcle_refl|]. eapply Forall_impl; [|exact IH2]. cbn. intros x Hx. qlra.
Qed.

Lemma walk_acyclic g u l : GI g -> walk g u u l -> l = [u].
Proof.
  intros I W. inversion W as [? H|? v ? l' E W']; subst; [reflexivity|exfalso].
  pose proof (edge_forward g u v I E) as F. destruct (walk_Inc g v u l' I W') as [_ B].
  destruct (walk_head _ _ _ _ W') as [_ Hl]. rewrite Forall_forall in B.
  specialize (B (tm u)). assert (In (tm u) (map tm l')). { apply in_map. eapply nth_error_In. exact Hl. }
  specialize (B H). qlra.
Qed.

(** Every node is reachable from a node without incoming edges. *)
Lemma In_edges_dec g u v : {In (u, v) (edges g)} + {~ In (u, v) (edges g)}.
Proof.
  destruct (existsb (edge_eqb (u, v)) (edges g)) eqn:E.
  - left. apply existsb_exists in E as (e & H & Ee). apply edge_eqb_eq in Ee; subst. exact H.
  - right. intro C. assert (existsb (edge_eqb (u, v)) (edges g) = true); [|congruence].
    apply existsb_exists. exists (u, v). split; [exact C|apply edge_eqb_eq; reflexivity].
Qed.

Lemma roots_iff g n : In n (roots g) <-> In n (nodes g) /\ forall u, ~ In (u, n) (edges g).
Proof.
  unfold roots, nodes, edges. rewrite filter_In, negb_true_iff. split; intros [H1 H2]; (split; [exact H1|]).
  - intros u C. apply in_map_iff in C as ([e d] & E & Hd). cbn in E; subst e.
    assert (existsb (fun e => node_eqb (snd (fst e)) n) (g_edges g) = true); [|congruence].
    apply existsb_exists. eexists; split; [exact Hd|]. cbn. apply node_eqb_eq; reflexivity.
  - destruct (existsb _ _) eqn:E; [|reflexivity]. exfalso. apply existsb_exists in E as ([[u v] d] & Hd & E).
    cbn in E. apply node_eqb_eq in E; subst v. apply (H2 u). change (u, n) with (fst ((u, n), d)). apply in_map. exact Hd.
Qed.
Lemma leaves_iff g n : In n (leaves g) <-> In n (nodes g) /\ forall u, ~ In (n, u) (edges g).
Proof.
  unfold leaves, nodes, edges. rewrite filter_In, negb_true_iff. split; intros [H1 H2]; (split; [exact H1|]).
  - intros u C. apply in_map_iff in C as ([e d] & E & Hd). cbn in E; subst e.
    assert (existsb (fun e => node_eqb (fst (fst e)) n) (g_edges g) = true); [|congruence].
    apply existsb_exists. eexists; split; [exact Hd|]. cbn. apply node_eqb_eq; reflexivity.
  - destruct (existsb _ _) eqn:E; [|reflexivity]. exfalso. apply existsb_exists in E as ([[u v] d] & Hd & E).
    cbn in E. apply node_eqb_eq in E; subst u. apply (H2 v). change (n, v) with (fst ((n, v), d)). apply in_map. exact Hd.
Qed.

Lemma walk_snoc g u v w l : GI g -> walk g u v l -> In (v, w) (edges g) -> walk g u w (l ++ [w]).
Proof.
  intros I W E. induction W as [u H|u v x l E' W IH]; cbn.
  - eapply walk_step; [exact E|]. apply walk_here. apply (gi_ends g I _ _ E).
  - eapply walk_step; [exact E'|]. apply IH. exact E.
Qed.

Definition earlier_count (g : graph) (n : node) : nat :=
  length (filter (fun m => qltb (tm m) (tm n)) (nodes g)).

Lemma filter_le {A} (f h : A -> bool) l : (forall x, In x l -> f x = true -> h x = true) ->
  (length (filter f l) <= length (filter h l))%nat.
Proof.
  induction l as [|x l IH]; cbn; intro H; [lia|]. specialize (IH (fun y Hy => H y (or_intror Hy))).
  destruct (f x) eqn:E; [rewrite (H x (or_introl eq_refl) E); cbn; lia|]. destruct (h x); cbn; lia.
Qed.
Lemma filter_lt {A} (f h : A -> bool) l x : In x l -> f x = false -> h x = true ->
  (forall x, In x l -> f x = true -> h x = true) -> (length (filter f l) < length (filter h l))%nat.
Proof.
  intros Hx Hf Hh. induction l as [|y l IH]; [destruct Hx|]. intro H. cbn.
  destruct Hx as [->|Hx].
  - rewrite Hf, Hh. cbn. pose proof (filter_le f h l (fun z Hz => H z (or_intror Hz))). lia.
  - specialize (IH Hx (fun z Hz => H z (or_intror Hz))).
    destruct (f y) eqn:E; [rewrite (H y (or_introl eq_refl) E); cbn; lia|]. destruct (h y); cbn; lia.
Qed.

Lemma filter_true_len {A} (l : list A) : length (filter (fun _ => true) l) = length l.
Proof. induction l; cbn; congruence. Qed.

Lemma earlier_count_lt g u v : GI g -> In (u, v) (edges g) -> (earlier_count g u < earlier_count g v)%nat.
Proof.
  intros I E. unfold earlier_count. pose proof (edge_forward g u v I E) as F.
  apply filter_lt with (x := u).
  - apply (gi_ends g I _ _ E).
  - apply qltb_ge. apply Qcle_refl.
  - apply qltb_lt. exact F.
  - intros x _ Hx. apply qltb_lt in Hx. apply qltb_lt. qlra.
Qed.

Lemma from_some_root g : GI g -> forall n, In n (nodes g) -> exists r l, In r (roots g) /\ walk g r n l.
Proof.
  intro I.
  assert (G : forall k n, (earlier_count g n <= k)%nat -> In n (nodes g) -> exists r l, In r (roots g) /\ walk g r n l).
  { induction k as [|k IH]; intros n Hc Hn.
    - exists n, [n]. split; [|constructor; exact Hn]. apply roots_iff. split; [exact Hn|].
      intros u E. pose proof (earlier_count_lt g u n I E). lia.
    - destruct (find (fun e => node_eqb (snd e) n) (edges g)) as [[u v]|] eqn:F.
      + apply find_some in F as [F1 F2]. cbn in F2. apply node_eqb_eq in F2; subst v.
        pose proof (earlier_count_lt g u n I F1) as L. destruct (gi_ends g I _ _ F1) as [Hu _].
        destruct (IH u ltac:(lia) Hu) as (r & l & Hr & W). exists r, (l ++ [n]). split; [exact Hr|].
        eapply walk_snoc; eassumption.
      + exists n, [n]. split; [|constructor; exact Hn]. apply roots_iff. split; [exact Hn|].
        intros u E. pose proof (find_none _ _ F _ E) as C. cbn in C. rewrite (proj2 (node_eqb_eq n n) eq_refl) in C. discriminate. }
  intros n Hn. exact (G _ n (le_n _) Hn).
Qed.

Lemma to_some_leaf g : GI g -> forall n, In n (nodes g) -> exists r l, In r (leaves g) /\ walk g n r l.
Proof.
  intro I.
  assert (G : forall k n, (length (nodes g) - earlier_count g n <= k)%nat -> In n (nodes g) -> exists r l, In r (leaves g) /\ walk g n r l).
  { induction k as [|k IH]; intros n Hc Hn.
    - exfalso. assert (earlier_count g n < length (nodes g))%nat; [|lia].
      unfold earlier_count. rewrite <- (filter_true_len (nodes g)).
      apply filter_lt with (x := n); auto. apply qltb_ge. apply Qcle_refl.
    - destruct (find (fun e => node_eqb (fst e) n) (edges g)) as [[u v]|] eqn:F.
      + apply find_some in F as [F1 F2]. cbn in F2. apply node_eqb_eq in F2; subst u.
        pose proof (earlier_count_lt g n v I F1) as L. destruct (gi_ends g I _ _ F1) as [_ Hu].
        assert (earlier_count g v <= length (nodes g))%nat.
        { unfold earlier_count. rewrite <- (filter_true_len (nodes g)). apply filter_le. auto. }
        destruct (IH v ltac:(lia) Hu) as (r & l & Hr & W). exists r, (n :: l). split; [exact Hr|].
        eapply walk_step; eassumption.
      + exists n, [n]. split; [|constructor; exact Hn]. apply leaves_iff. split; [exact Hn|].
        intros u E. pose proof (find_none _ _ F _ E) as C. cbn in C. rewrite (proj2 (node_eqb_eq n n) eq_refl) in C. discriminate. }
  intros n Hn. exact (G _ n (le_n _) Hn).
Qed.

(** *** get_trajectory *)
Lemma path_of_spec N g u v : nx_ok N g -> GI g ->
  (forall l, walk g u v l -> path_of N g u v = Ok (nx_shortest_path N g u v) /\ walk g u v (nx_shortest_path N g u v)) /\
  (forall p, path_of N g u v = Ok p -> walk g u v p) /\
  ((forall l, ~ walk g u v l) -> path_of N g u v = Err PyValueError).
Proof.
  intros [O1 O2 O3] I. unfold path_of, check_node. split; [|split].
  - intros l W. destruct (walk_nodes g u v l I W) as (H1 & H2 & _).
    rewrite (proj2 (has_node_iff _ _) H1), (proj2 (has_node_iff _ _) H2).
    assert (P : nx_has_path N g u v = true) by (apply O2; eauto). rewrite P. split; [reflexivity|]. apply O3; exact P.
  - intro p. destruct (has_node g u); [|discriminate]. destruct (has_node g v); [|discriminate].
    destruct (nx_has_path N g u v) eqn:P; [|discriminate]. intros [= <-]. apply O3; exact P.
  - intro H. destruct (has_node g u); [|reflexivity]. destruct (has_node g v); [|reflexivity].
    destruct (nx_has_path N g u v) eqn:P; [|reflexivity]. apply O2 in P as [l P]. exfalso. exact (H l P).
Qed.

Lemma rmapM_times g l : GI g -> (forall n, In n l -> In n (nodes g)) ->
  rmapM node_time l = Ok (map tm l) /\ rmapM node_state l = Ok (map (fun n => snd (sample_of n)) l).
Proof.
  intro I. induction l as [|n l IH]; intro H; [split; reflexivity|].
  destruct IH as [I1 I2]; [intros m Hm; apply H; right; exact Hm|].
  destruct (gi_timed g I n (H n (or_introl eq_refl))) as (t & s & ->).
  cbn [rmapM node_time node_state map sample_of]. rewrite I1, I2. split; reflexivity.
Qed.

Lemma get_trajectory_spec N g u v : nx_ok N g -> GI g -> forall l, walk g u v l ->
  exists p tr, walk g u v p /\ (forall q, walk g u v q -> (length p <= length q)%nat) /\
    get_trajectory N g u v = Ok tr /\ iter tr = map sample_of p.
Proof.
  intros O I l W. destruct (path_of_spec N g u v O I) as (P1 & _ & _). destruct (P1 l W) as [E Wp].
  set (p := nx_shortest_path N g u v) in *. exists p. unfold get_trajectory. rewrite E.
  destruct (walk_nodes g u v p I Wp) as (_ & _ & Hp). destruct (rmapM_times g p I Hp) as [R1 R2]. rewrite R1, R2.
  destruct (walk_Inc g u v p I Wp) as [Hi _].
  assert (Es : map tm p = map fst (map sample_of p)) by (rewrite map_map; reflexivity).
  assert (Ev : map (fun n => snd (sample_of n)) p = map snd (map sample_of p)) by (rewrite map_map; reflexivity).
  rewrite Es in *. rewrite Ev. destruct (new_pairs (map sample_of p)) as [Q _]. rewrite Q by exact Hi.
  eexists. split; [exact Wp|]. split; [|split; [reflexivity|apply iter_pairs]].
  intros q Wq. assert (Hp' : nx_has_path N g u v = true) by (apply (nxo_path N g O); eauto).
  apply (nxo_short N g O u v Hp'). exact Wq.
Qed.

Lemma Forall2_rmapM {A B} (f : A -> result B) (R : A -> B -> Prop) l :
  (forall x, In x l -> exists y, f x = Ok y /\ R x y) -> exists ys, rmapM f l = Ok ys /\ Forall2 R l ys.
Proof.
  induction l as [|x l IH]; intro H; [exists []; split; [reflexivity|constructor]|].
  destruct (H x (or_introl eq_refl)) as (y & E & Ry). destruct IH as (ys & Es & F); [intros z Hz; apply H; right; exact Hz|].
  exists (y :: ys). cbn. rewrite E, Es. split; [reflexivity|constructor; assumption].
Qed.

Lemma unique_root_reaches g r n : GI g -> roots g = [r] -> In n (nodes g) -> exists l, walk g r n l.
Proof.
  intros I Hr Hn. destruct (from_some_root g I n Hn) as (r' & l & Hin & W). rewrite Hr in Hin. destruct Hin as [<-|[]]. eauto.
Qed.

(** *** get_transition *)
Lemma joined_nil (a b : traj) : iter a = [] -> joined a b = iter b.
Proof. intro H. unfold joined. rewrite H. reflexivity. Qed.


Definition fits (g : graph) : Prop := forall u v d, aget edge_eqb (g_edges g) (u, v) = Some d ->
  WF (ed_transition d) /\ get_start (ed_transition d) = Ok (tm u) /\ get_end (ed_transition d) = Ok (tm v).

Lemma spans_fits g : transitions_span_edges g -> fits g.
Proof. intros H u v d E. destruct (H u v d E) as (A & B & C). split; [apply obtainable_WF; exact A|]. split; assumption. Qed.

Lemma edge_has_data g u v : In (u, v) (edges g) -> exists d, aget edge_eqb (g_edges g) (u, v) = Some d.
Proof.
  intro H. apply (aget_keys edge_eqb edge_eqb_eq) in H. destruct (aget edge_eqb (g_edges g) (u, v)); [eauto|contradiction].
Qed.

Lemma Inc_head_lt t r x : Inc (t :: r) -> In x r -> t < x.
Proof. intros H Hx. inversion H as [|? ? _ F]; subst. rewrite Forall_forall in F. apply F; exact Hx. Qed.

Lemma end_max (a : traj) te x : WF a -> get_end a = Ok te -> In x (tss a) -> x <= te.
Proof.
  intros [_ Hi] E Hx. apply get_end_iff in E. apply In_nth_error in Hx as [i Hx].
  eapply (Inc_le_nth (tss a) i (length (tss a) - 1)); [exact Hi|exact Hx|exact E|].
  assert (i < length (tss a))%nat by (apply nth_error_Some; congruence). lia.
Qed.

Lemma merge_step g acc w x d : GI g -> fits g -> In (w, x) (edges g) -> aget edge_eqb (g_edges g) (w, x) = Some d ->
  WF acc -> iter acc <> [] -> get_end acc = Ok (tm w) ->
  exists acc', merge_unsafe acc (ed_transition d) tol_default = Ok acc' /\ WF acc' /\
    iter acc' = iter acc ++ tl (iter (ed_transition d)) /\ get_end acc' = Ok (tm x).
Proof.
  intros I Hf E Ed W Ne Ee. destruct (Hf _ _ _ Ed) as (Wd & Sd & Nd).
  pose proof (edge_forward g w x I E) as Lt.
  unfold merge_unsafe. destruct (tr_is_empty acc) eqn:Em; [apply (tr_is_empty_iff acc W) in Em; contradiction|].
  rewrite item_pred_0. pose proof Ee as Ee'. apply get_end_iff in Ee'. unfold last_of. rewrite Ee'.
  unfold get_start in Sd. destruct (tss (ed_transition d)) as [|t0 r] eqn:Et; [discriminate|]. injection Sd as ->.
  cbn [item nth_error].
  assert (Z : qabs (tm w - tm w) = 0). { replace (tm w - tm w) with 0 by ring. reflexivity. }
  change (item (tm w :: r) 0) with (@Ok Qc (tm w)). cbv iota beta. rewrite Z.
  assert (T : qleb 0 tol_default = true) by reflexivity. rewrite T.
  pose proof (joined_fst acc (ed_transition d) W Wd) as JF. rewrite Em, Et in JF. cbn [tl] in JF.
  assert (JI : Inc (map fst (joined acc (ed_transition d)))).
  { rewrite JF. destruct Wd as [_ Wi]. rewrite Et in Wi. apply Inc_app; [exact (proj2 W)|inversion Wi; assumption|].
    intros p q Hp Hq. pose proof (end_max acc _ p W Ee Hp). pose proof (Inc_head_lt _ _ _ Wi Hq). qlra. }
  assert (JE : joined acc (ed_transition d) = iter acc ++ tl (iter (ed_transition d))).
  { unfold joined. destruct (iter acc); [contradiction|reflexivity]. }
  eexists. split; [apply join_iff; [exact W|exact Wd|]; split; [exact JI|reflexivity]|].
  split; [|split].
  - split; cbn; [rewrite !map_length; reflexivity|exact JI].
  - rewrite iter_pairs. exact JE.
  - apply get_end_iff. cbn [tss]. rewrite JF.
    pose proof Nd as Nd'. apply get_end_iff in Nd'. rewrite Et in Nd'.
    destruct r as [|t1 r].
    { cbn in Nd'. injection Nd' as Nd'. qlra. }
    change (last_of (tss acc ++ t1 :: r) = Some (tm x)). rewrite last_of_app by discriminate.
    unfold last_of. cbn [length] in *. replace (S (S (length r)) - 1)%nat with (S (length r)) in Nd' by lia.
    cbn [nth_error] in Nd'. replace (S (length r) - 1)%nat with (length r) by lia. exact Nd'.
Qed.

Lemma chain g : GI g -> fits g -> forall w v l, walk g w v l -> forall acc, WF acc -> iter acc <> [] ->
  get_end acc = Ok (tm w) ->
  exists acc', rfold (fun tr h => match edge_data g h with
                                | Err e => Err e
                                | Ok d => merge_unsafe tr (ed_transition d) tol_default
                                end) acc (hops l) = Ok acc' /\ WF acc' /\
    iter acc' = iter acc ++ flat_map (@tl _) (map (on_edge g) (hops l)) /\ get_end acc' = Ok (tm v).
Proof.
  intros I Hf w v l W. induction W as [u H|u x w l E W IH]; intros acc Wa Ne Ee.
  - exists acc. cbn. rewrite app_nil_r. auto.
  - destruct (edge_has_data g u x E) as [d Ed].
    destruct (merge_step g acc u x d I Hf E Ed Wa Ne Ee) as (a1 & M1 & M2 & M3 & M4).
    destruct (walk_head _ _ _ _ W) as [Hh _]. destruct l as [|x' l]; [discriminate|]. cbn in Hh. injection Hh as ->.
    destruct (IH a1 M2) as (a2 & A1 & A2 & A3 & A4); [rewrite M3; destruct (iter acc); [contradiction|discriminate]|exact M4|].
    exists a2. cbn [hops rfold]. unfold edge_data at 1. rewrite Ed, M1. split; [exact A1|]. split; [exact A2|].
    split; [|exact A4]. rewrite A3, M3. cbn [map flat_map]. unfold on_edge at 2. rewrite Ed, app_assoc. reflexivity.
Qed.

Lemma get_transition_spec N g u v : nx_ok N g -> GI g -> fits g -> forall l, walk g u v l ->
  exists p tr, walk g u v p /\ (forall q, walk g u v q -> (length p <= length q)%nat) /\
    get_transition N g u v = Ok tr /\ WF tr /\ iter tr = stitch (map (on_edge g) (hops p)).
Proof.
  intros O I Hf l W. destruct (path_of_spec N g u v O I) as (P1 & _ & _). destruct (P1 l W) as [E Wp].
  set (p := nx_shortest_path N g u v) in *. exists p. unfold get_transition. rewrite E.
  change (new_traj [] []) with (@Ok traj (mkSeq [] [] true)). cbv iota beta.
  assert (Sh : forall q, walk g u v q -> (length p <= length q)%nat).
  { intros q Wq. assert (Hp' : nx_has_path N g u v = true) by (apply (nxo_path N g O); eauto).
    apply (nxo_short N g O u v Hp'). exact Wq. }
  clear P1 E W. clearbody p.
  destruct Wp as [u H|u x v r Ex Wr].
  - exists (mkSeq [] [] true). split; [constructor; exact H|]. split; [exact Sh|]. split; [reflexivity|].
    split; [split; [reflexivity|constructor]|reflexivity].
  - destruct (edge_has_data g u x Ex) as [d Ed]. destruct (walk_head _ _ _ _ Wr) as [Hh _].
    destruct r as [|x' r]; [discriminate|]. cbn in Hh. injection Hh as ->.
    destruct (Hf _ _ _ Ed) as (Wd & Sd & Nd).
    assert (Nd2 : iter (ed_transition d) <> []).
    { unfold get_start in Sd. unfold iter. destruct Wd as [Wl _]. destruct (tss (ed_transition d)); [discriminate|].
      destruct (vals (ed_transition d)); [discriminate|]. discriminate. }
    set (a1 := mkSeq (tss (ed_transition d)) (vals (ed_transition d)) true : traj).
    assert (M : merge_unsafe (mkSeq [] [] true) (ed_transition d) tol_default = Ok a1).
    { unfold merge_unsafe. cbn [tr_is_empty tss vals length Nat.eqb andb]. unfold join. cbn.
      apply new_seq_ok; [exact (proj1 Wd)|exact (proj2 Wd)]. }
    destruct (chain g I Hf x v (x :: r) Wr a1) as (a2 & A1 & A2 & A3 & A4).
    + split; [exact (proj1 Wd)|exact (proj2 Wd)].
    + exact Nd2.
    + exact Nd.
    + exists a2. split; [eapply walk_step; eassumption|]. split; [exact Sh|]. cbn [hops rfold].
      unfold edge_data at 1. rewrite Ed, M. split; [exact A1|]. split; [exact A2|].
      rewrite A3. cbn [map stitch]. unfold on_edge at 2. rewrite Ed. reflexivity.
Qed.

(** *** commands_on_trajectory *)
Lemma hops_times g u v l : GI g -> walk g u v l ->
  map (fun h => tm (fst h)) (hops l) = removelast (map tm l) /\
  (forall h, In h (hops l) -> In h (edges g)).
Proof.
  intro I. induction 1 as [u H|u x w l E W [IH1 IH2]]; [cbn; split; [reflexivity|intros h []]|].
  destruct (walk_head _ _ _ _ W) as [Hh _]. destruct l as [|x' l]; [discriminate|]. cbn in Hh. injection Hh as ->.
  change (hops (u :: x :: l)) with ((u, x) :: hops (x :: l)). split.
  - rewrite map_cons, IH1. reflexivity.
  - intros h [<-|Hh]; [exact E|apply IH2; exact Hh].
Qed.

Lemma removelast_Inc l : Inc l -> Inc (removelast l).
Proof.
  intro H. destruct l as [|x l]; [constructor|].
  assert (E : x :: l = removelast (x :: l) ++ [last (x :: l) 0]) by (apply app_removelast_last; discriminate).
  rewrite E in H. apply Inc_app_inv in H. tauto.
Qed.

Lemma commands_spec N g tr t0 v0 t1 v1 : nx_ok N g -> GI g -> WF tr ->
  nth_error (iter tr) 0 = Some (t0, v0) -> last_of (iter tr) = Some (t1, v1) ->
  (forall u v d, aget edge_eqb (g_edges g) (u, v) = Some d -> exists c, ed_commands d = Some c) ->
  forall l, walk g (Timed t0 v0) (Timed t1 v1) l ->
  exists p cs, walk g (Timed t0 v0) (Timed t1 v1) p /\
    (forall q, walk g (Timed t0 v0) (Timed t1 v1) q -> (length p <= length q)%nat) /\
    commands_on_trajectory N g tr = Ok cs /\
    Forall2 (fun h s => fst s = fst (sample_of (fst h)) /\
  exists d, aget edge_eqb (g_edges g) h = Some d /\ ed_commands d = Some (snd s)) (hops p) (iter cs).
Proof.
  intros O I W E0 E1 Hc l Wl. unfold commands_on_trajectory.
  assert (Li : length (iter tr) = length (tss tr)) by (apply iter_length; exact W).
  unfold last_of in E1. rewrite Li in E1. unfold iter in E0, E1. apply nth_error_combine in E0 as [E0 F0], E1 as [E1 F1].
  cbn [fst snd] in E0, F0, E1, F1.
  assert (G0 : item (tss tr) 0 = Ok t0) by (unfold item; rewrite E0; reflexivity).
  assert (G1 : item (vals tr) 0 = Ok v0) by (unfold item; rewrite F0; reflexivity).
  assert (G2 : item_pred (tss tr) 0 = Ok t1) by (rewrite item_pred_0; unfold last_of; rewrite E1; reflexivity).
  assert (G3 : item_pred (vals tr) 0 = Ok v1) by (rewrite item_pred_0; unfold last_of; rewrite <- (proj1 W), F1; reflexivity).
  rewrite G0, G1, G2, G3.
  destruct (path_of_spec N g (Timed t0 v0) (Timed t1 v1) O I) as (P1 & _ & _). destruct (P1 l Wl) as [Ep Wp]. rewrite Ep.
  set (p := nx_shortest_path N g (Timed t0 v0) (Timed t1 v1)) in *.
  assert (Sh : forall q, walk g (Timed t0 v0) (Timed t1 v1) q -> (length p <= length q)%nat).
  { intros q Wq. assert (Hp' : nx_has_path N g (Timed t0 v0) (Timed t1 v1) = true) by (apply (nxo_path N g O); eauto).
    apply (nxo_short N g O _ _ Hp'). exact Wq. }
  destruct (hops_times g _ _ p I Wp) as [Ht He].
  destruct (Forall2_rmapM (fun h => match edge_data g h with
                                | Err e => Err e
                                | Ok d => match ed_commands d with Some c => Ok c | None => Err PyKeyError end
                                end)
     (fun h c => exists d, aget edge_eqb (g_edges g) h = Some d /\ ed_commands d = Some c) (hops p)) as (cs & R1 & R2).
  { intros [u v] Hh. apply He in Hh. destruct (edge_has_data g u v Hh) as [d Ed]. destruct (Hc _ _ _ Ed) as [c Hd].
    exists c. unfold edge_data. rewrite Ed, Hd. split; [reflexivity|]. eauto. }
  rewrite R1.
  assert (R3 : rmapM (fun h => node_time (fst h)) (hops p) = Ok (map (fun h => tm (fst h)) (hops p))).
  { clear -He I. induction (hops p) as [|[u v] r IH]; [reflexivity|]. cbn [rmapM fst map].
    destruct (gi_ends g I _ _ (He _ (or_introl eq_refl))) as [Hu _]. destruct (gi_timed g I _ Hu) as (t & s & ->).
    cbn [node_time]. rewrite IH; [reflexivity|]. intros h Hh. apply He. right; exact Hh. }
  rewrite R3. destruct (walk_Inc g _ _ p I Wp) as [Hi _].
  assert (Lc : length cs = length (hops p)). { clear -R2. induction R2; cbn; congruence. }
  exists p. eexists. split; [exact Wp|]. split; [exact Sh|]. split.
  - apply new_seq_ok; [rewrite map_length, Lc; reflexivity|]. rewrite Ht. apply removelast_Inc. exact Hi.
  - unfold iter; cbn [tss vals]. clear -R2. induction R2 as [|h c hs cs Hh R2 IH]; cbn; constructor; [|exact IH].
    cbn. split; [reflexivity|exact Hh].
Qed.
