(** Lemmas about trajectories (merge, upsample, command plans). *)
From Coq Require Import QArith Qcanon ZArith List Bool Arith Lia Sorted.
From Verif Require Import Base Num SeqModel SeqSpec SeqProofs SeqProofs2 VehState TrajModel TrajSpec.
Import ListNotations.
Open Scope Qc_scope.

Lemma tr_is_empty_iff (a : traj) : WF a -> tr_is_empty a = true <-> iter a = [].
Proof.
  intros [Hl _]. unfold tr_is_empty, iter. destruct (tss a), (vals a); cbn in *; try discriminate; split; auto; discriminate.
Qed.

Lemma vs_sub_vx a b : vs_vx (vs_sub a b) = vs_vx a - vs_vx b.
Proof. cbn. ring. Qed.
Lemma vs_sub_delta a b : vs_delta (vs_sub a b) = vs_delta a - vs_delta b.
Proof. cbn. ring. Qed.

Lemma empty_lens (a : traj) : WF a -> iter a = [] -> tss a = [] /\ vals a = [].
Proof.
  intros [Hl _]. unfold iter. destruct (tss a), (vals a); cbn in *; try discriminate; auto.
Qed.
Lemma nonempty_lens (a : traj) : WF a -> iter a <> [] -> tss a <> [] /\ vals a <> [].
Proof.
  intros [Hl _]. unfold iter. destruct (tss a), (vals a); cbn in *; try discriminate; try contradiction; split; discriminate.
Qed.

Lemma last_of_app {A} (l m : list A) : m <> [] -> last_of (l ++ m) = last_of m.
Proof.
  intro H. unfold last_of. rewrite app_length. destruct m as [|x m]; [contradiction|].
  rewrite nth_error_app2 by (cbn; lia). f_equal. cbn. lia.
Qed.
Lemma last_of_some {A} (l : list A) : l <> [] -> exists x, last_of l = Some x.
Proof.
  intro H. unfold last_of. destruct (nth_error l (length l - 1)) eqn:E; [eauto|].
  apply nth_error_None in E. destruct l; [contradiction|cbn in E; lia].
Qed.

Lemma connectable_spec (a b : traj) : WF a -> WF b ->
  exists c, is_connectable a b tol_default = Ok c /\ (c = true <-> seam_ok a b).
Proof.
  intros Wa Wb. unfold is_connectable.
  destruct (tr_is_empty a) eqn:Ea; cbn [orb].
  { exists true. split; [reflexivity|]. split; [|reflexivity]. intros _ va vb H.
    apply tr_is_empty_iff in Ea; [|exact Wa]. apply empty_lens in Ea as [_ Ea]; [|exact Wa].
    rewrite Ea in H. discriminate. }
  destruct (tr_is_empty b) eqn:Eb.
  { exists true. split; [reflexivity|]. split; [|reflexivity]. intros _ va vb _ H.
    apply tr_is_empty_iff in Eb; [|exact Wb]. apply empty_lens in Eb as [_ Eb]; [|exact Wb].
    rewrite Eb in H. discriminate. }
  assert (Na : iter a <> []) by (intro C; apply (tr_is_empty_iff a Wa) in C; congruence).
  assert (Nb : iter b <> []) by (intro C; apply (tr_is_empty_iff b Wb) in C; congruence).
  apply nonempty_lens in Na as [Na1 Na2]; [|exact Wa]. apply nonempty_lens in Nb as [Nb1 Nb2]; [|exact Wb].
  destruct (last_of_some _ Na1) as [te He]. destruct (last_of_some _ Na2) as [va Hva].
  destruct (tss b) as [|ts rb] eqn:Etb; [contradiction|].
  destruct (vals b) as [|vb rvb] eqn:Evb; [contradiction|].
  assert (G : get_end a = Ok te) by (apply get_end_iff; exact He). rewrite G.
  assert (G2 : get_start b = Ok ts) by (apply get_start_nth; rewrite Etb; reflexivity). rewrite G2.
  assert (A1 : at_ a te = Ok va).
  { apply at_some; [exact Wa|]. exists (length (tss a) - 1)%nat. split; [exact He|].
    destruct Wa as [Hl _]. rewrite Hl. exact Hva. }
  assert (A2 : at_ b ts = Ok vb).
  { apply at_some; [exact Wb|]. exists O. rewrite Etb, Evb. split; reflexivity. }
  rewrite A1, A2. eexists; split; [reflexivity|].
  rewrite vs_sub_vx, vs_sub_delta, andb_true_iff, !qltb_lt. unfold seam_ok, tol_default. rewrite Hva, Evb. cbn. split.
  - intros H ? ? [= <-] [= <-]. exact H.
  - intro H. apply H; reflexivity.
Qed.

Lemma joined_fst (a b : traj) : WF a -> WF b ->
  map fst (joined a b) = if tr_is_empty a then tss a ++ tss b else tss a ++ tl (tss b).
Proof.
  intros Wa Wb. unfold joined. destruct (tr_is_empty a) eqn:E.
  - apply tr_is_empty_iff in E; [|exact Wa]. rewrite E. apply empty_lens in E as [E _]; [|exact Wa]. rewrite E.
    apply iter_fst; exact Wb.
  - destruct (iter a) eqn:F; [apply (tr_is_empty_iff a Wa) in F; congruence|]. rewrite <- F.
    rewrite map_app, iter_fst by exact Wa. f_equal. rewrite <- (iter_fst b Wb). destruct (iter b); reflexivity.
Qed.
Lemma joined_snd (a b : traj) : WF a -> WF b ->
  map snd (joined a b) = if tr_is_empty a then vals a ++ vals b else vals a ++ tl (vals b).
Proof.
  intros Wa Wb. unfold joined. destruct (tr_is_empty a) eqn:E.
  - apply tr_is_empty_iff in E; [|exact Wa]. rewrite E. apply empty_lens in E as [_ E]; [|exact Wa]. rewrite E.
    apply iter_snd; exact Wb.
  - destruct (iter a) eqn:F; [apply (tr_is_empty_iff a Wa) in F; congruence|]. rewrite <- F.
    rewrite map_app, iter_snd by exact Wa. f_equal. rewrite <- (iter_snd b Wb). destruct (iter b); reflexivity.
Qed.

Lemma join_eq (a b : traj) : WF a -> WF b ->
  join a b = new_traj (map fst (joined a b)) (map snd (joined a b)).
Proof.
  intros Wa Wb. unfold join. rewrite joined_fst, joined_snd by assumption.
  destruct (tr_is_empty a); reflexivity.
Qed.

Lemma new_pairs (l : list (Qc * vstate)) :
  (Inc (map fst l) -> new_traj (map fst l) (map snd l) = Ok (mkSeq (map fst l) (map snd l) true)) /\
  (~ Inc (map fst l) -> new_traj (map fst l) (map snd l) = Err ZValueError).
Proof.
  split; intro H.
  - apply new_seq_ok; [rewrite !map_length; reflexivity|exact H].
  - unfold new_traj. destruct (new_seq true (map fst l) (map snd l)) as [s|e] eqn:E.
    + apply new_seq_inv in E as (_ & C & _). contradiction.
    + apply new_seq_err in E. subst e; reflexivity.
Qed.

Lemma iter_pairs (l : list (Qc * vstate)) ty : iter (mkSeq (map fst l) (map snd l) ty) = l.
Proof. unfold iter; cbn. apply combine_fst_snd. Qed.

Lemma Inc_dec ts : {Inc ts} + {~ Inc ts}.
Proof.
  destruct (steps_ok ts) eqn:E.
  - left. apply steps_ok_iff. exact E.
  - right. intro C. apply steps_ok_iff in C. congruence.
Qed.

Lemma seq_ext {X} (s s' : seq X) : WF s -> WF s' -> iter s = iter s' -> typed s = typed s' -> s = s'.
Proof.
  intros W W' E T. pose proof (iter_fst s W) as A1. pose proof (iter_snd s W) as A2.
  pose proof (iter_fst s' W') as B1. pose proof (iter_snd s' W') as B2. rewrite E in A1, A2.
  destruct s, s'; cbn in *; congruence.
Qed.

Lemma join_iff (a b c : traj) : WF a -> WF b ->
  join a b = Ok c <-> Inc (map fst (joined a b)) /\ c = mkSeq (map fst (joined a b)) (map snd (joined a b)) true.
Proof.
  intros Wa Wb. rewrite join_eq by assumption. destruct (new_pairs (joined a b)) as [P Q].
  destruct (Inc_dec (map fst (joined a b))) as [H|H].
  - rewrite P by exact H. split; [intros [= <-]; auto|intros [_ ->]; reflexivity].
  - rewrite Q by exact H. split; [discriminate|intros [C _]; contradiction].
Qed.

Lemma merge_iff (a b c : traj) : WF a -> WF b ->
  merge a b = Ok c <-> seam_ok a b /\ Inc (map fst (joined a b)) /\
    c = mkSeq (map fst (joined a b)) (map snd (joined a b)) true.
Proof.
  intros Wa Wb. unfold merge. destruct (connectable_spec a b Wa Wb) as (k & -> & Hk). destruct k.
  - rewrite join_iff by assumption. split; [intro H; split; [apply Hk; reflexivity|exact H]|tauto].
  - split; [discriminate|]. intros [C _]. apply Hk in C. discriminate.
Qed.

(** *** upsample *)
(** Expected samples. *)
Fixpoint expand (n : nat) (l : list (Qc * vstate)) : list (Qc * vstate) :=
  match l with
  | (ta, va) :: (((tb, vb) :: _) as r) =>
      (ta, va) :: map (fun j => (ta + qn j / qn (S n) * (tb - ta), blend (qn j / qn (S n)) va vb)) (List.seq 1 n)
      ++ expand n r
  | _ => l
  end.

Lemma qn_S_neq n : qn (S n) <> 0.
Proof. intro C. pose proof (qn_nonneg n). rewrite qn_S in C. qlra. Qed.
Lemma qn_S_pos n : 0 < qn (S n).
Proof. pose proof (qn_nonneg n). rewrite qn_S. qlra. Qed.

Lemma frac_pos j n : (1 <= j <= n)%nat -> 0 < qn j / qn (S n) /\ qn j / qn (S n) < 1.
Proof.
  intro H. pose proof (qn_S_pos n) as P. pose proof (qn_S_neq n) as Z.
  assert (A : 0 < qn j). { rewrite <- qn_0. apply qn_lt. lia. }
  assert (B : qn j < qn (S n)) by (apply qn_lt; lia).
  assert (E : qn j / qn (S n) * qn (S n) = qn j) by (field; exact Z).
  set (x := qn j / qn (S n)) in *. split.
  - destruct (Qclt_le_dec 0 x) as [L|L]; [exact L|exfalso]. qnra.
  - destruct (Qclt_le_dec x 1) as [L|L]; [exact L|exfalso].
    assert (1 * qn (S n) <= x * qn (S n)) by (apply Qcmult_le_compat_r; [exact L|apply Qclt_le_weak; exact P]). qlra.
Qed.

Lemma blend_eq s va vb : vs_add (vs_mul va (1 - s)) (vs_mul vb s) = blend s va vb.
Proof. unfold vs_add, vs_mul, blend; cbn. f_equal; ring. Qed.

Lemma interp_inside (a : traj) i ta tb va vb s : WF a ->
  nth_error (iter a) i = Some (ta, va) -> nth_error (iter a) (S i) = Some (tb, vb) ->
  0 < s -> s < 1 -> at_interp vs_mul vs_add a (ta + s * (tb - ta)) = Ok (blend s va vb).
Proof.
  intros W H1 H2 P Q. unfold iter in H1, H2. apply nth_error_combine in H1 as [H1 H1'], H2 as [H2 H2']. cbn in *.
  assert (L : ta < tb). { destruct W as [_ Hi]. eapply (Inc_nth _ Hi i (S i)); [lia|eassumption..]. }
  assert (Ne : tss a <> []). { intro C. rewrite C in H1. destruct i; discriminate. }
  destruct (at_interp_spec vs_mul vs_add a (ta + s * (tb - ta)) W Ne) as (v & E & R). rewrite E. f_equal.
  eapply interp_rel_fun; [exact W|exact R|]. rewrite <- blend_eq.
  assert (F : (ta + s * (tb - ta) - ta) / (tb - ta) = s) by (field; intro C; qlra).
  rewrite <- F at 2 3. assert (D : 0 < tb - ta) by qlra.
  eapply ir_inside; try eassumption.
  - assert (0 <= s * (tb - ta)) by (apply Qcmul_nonneg; apply Qclt_le_weak; assumption). qlra.
  - assert (0 < (1 - s) * (tb - ta)) by (apply Qcmul_pos; qlra). qnra.
  - right. assert (0 < s * (tb - ta)) by (apply Qcmul_pos; assumption). qlra.
Qed.

Lemma up_points_spec (a : traj) i ta tb va vb n : WF a ->
  nth_error (iter a) i = Some (ta, va) -> nth_error (iter a) (S i) = Some (tb, vb) ->
  forall k j, (1 <= j)%nat -> (j + k = S n)%nat ->
  up_points a ta ((tb - ta) / qn (S n)) j k =
  Ok (map (fun j => (ta + qn j / qn (S n) * (tb - ta), blend (qn j / qn (S n)) va vb)) (List.seq j k)).
Proof.
  intros W H1 H2. induction k as [|k IH]; intros j Hj Hk; cbn [up_points List.seq map]; [reflexivity|]. cbv zeta.
  assert (E : qn j * ((tb - ta) / qn (S n)) + ta = ta + qn j / qn (S n) * (tb - ta)).
  { field. apply qn_S_neq. }
  rewrite E. destruct (frac_pos j n ltac:(lia)) as [P Q].
  rewrite (interp_inside a i ta tb va vb _ W H1 H2 P Q), IH by lia. reflexivity.
Qed.

Lemma skipn_cons_nth {A} (l : list A) i x r : skipn i l = x :: r -> nth_error l i = Some x /\ skipn (S i) l = r.
Proof.
  revert i; induction l as [|y l IH]; intros [|i] H; cbn in *; try discriminate.
  - injection H as -> ->. auto.
  - apply IH in H. exact H.
Qed.

Lemma up_loop_spec (a : traj) n : WF a -> forall l i, skipn i (iter a) = l ->
  exists p, up_loop a n (map fst l) = Ok p /\
    match rev l with [] => p = [] | x :: _ => p ++ [x] = expand n l end.
Proof.
  intro W. induction l as [|[ta va] r IH]; intros i E; [exists []; split; reflexivity|].
  destruct (skipn_cons_nth _ _ _ _ E) as [H1 E2]. destruct r as [|[tb vb] r].
  - exists []. split; reflexivity.
  - destruct (skipn_cons_nth _ _ _ _ E2) as [H2 _].
    destruct (IH (S i) E2) as (p & Ep & Hp). cbn [map fst up_loop] in *.
    assert (A : at_ a ta = Ok va).
    { apply at_some; [exact W|]. unfold iter in H1. apply nth_error_combine in H1. exists i. exact H1. }
    rewrite A, (up_points_spec a i ta tb va vb n W H1 H2 n 1%nat) by lia. rewrite Ep.
    eexists; split; [reflexivity|].
    change (rev ((ta, va) :: (tb, vb) :: r)) with (rev ((tb, vb) :: r) ++ [(ta, va)]).
    destruct (rev ((tb, vb) :: r)) as [|x y] eqn:Er.
    + apply (proj1 (rev_nil_iff _)) in Er. discriminate.
    + cbn [app]. rewrite <- app_assoc, Hp. reflexivity.
Qed.

Lemma expand_ends n l x : nth_error l 0 = Some x -> nth_error (expand n l) 0 = Some x.
Proof. destruct l as [|[ta va] [|[tb vb] r]]; cbn; auto. Qed.

Lemma expand_length n l : l <> [] -> length (expand n l) = ((length l - 1) * S n + 1)%nat.
Proof.
  induction l as [|[ta va] r IH]; intro H; [contradiction|]. destruct r as [|[tb vb] r]; [cbn; lia|].
  change (expand n ((ta, va) :: (tb, vb) :: r)) with
    ((ta, va) :: map (fun j => (ta + qn j / qn (S n) * (tb - ta), blend (qn j / qn (S n)) va vb)) (List.seq 1 n)
      ++ expand n ((tb, vb) :: r)).
  cbn [length]. rewrite app_length, map_length, seq_length, IH by discriminate. cbn [length]. lia.
Qed.

Lemma expand_nth n l i j : (j <= n)%nat -> forall ta va,
  nth_error l i = Some (ta, va) ->
  (j = 0%nat -> nth_error (expand n l) (i * S n) = Some (ta, va)) /\
  (forall tb vb, (1 <= j)%nat -> nth_error l (S i) = Some (tb, vb) ->
    nth_error (expand n l) (i * S n + j) =
      Some (ta + qn j / qn (S n) * (tb - ta), blend (qn j / qn (S n)) va vb)).
Proof.
  intro Hj. revert l; induction i as [|i IH]; intros l ta va H.
  - destruct l as [|[t v] r]; [discriminate|]. cbn in H. injection H as -> ->. split.
    + intros _. destruct r as [|[tb vb] r]; reflexivity.
    + intros tb vb H1 H2. destruct r as [|[t v] r]; [discriminate|]. cbn in H2. injection H2 as -> ->.
      change (expand n ((ta, va) :: (tb, vb) :: r)) with
        ((ta, va) :: map (fun j => (ta + qn j / qn (S n) * (tb - ta), blend (qn j / qn (S n)) va vb)) (List.seq 1 n)
          ++ expand n ((tb, vb) :: r)).
      cbn [Nat.mul Nat.add]. destruct j as [|j]; [lia|]. cbn [nth_error].
      rewrite nth_error_app1 by (rewrite map_length, seq_length; lia).
      rewrite nth_error_map. rewrite nth_error_nth' with (d := O) by (rewrite seq_length; lia).
      rewrite seq_nth by lia. reflexivity.
  - destruct l as [|[t v] r]; [discriminate|]. cbn [nth_error] in H.
    destruct r as [|[t2 v2] r]; [destruct i; discriminate|].
    change (expand n ((t, v) :: (t2, v2) :: r)) with
      (((t, v) :: map (fun j => (t + qn j / qn (S n) * (t2 - t), blend (qn j / qn (S n)) v v2)) (List.seq 1 n))
          ++ expand n ((t2, v2) :: r)).
    specialize (IH _ _ _ H) as [I1 I2].
    assert (L : length ((t, v) :: map (fun j => (t + qn j / qn (S n) * (t2 - t), blend (qn j / qn (S n)) v v2)) (List.seq 1 n)) = S n)
      by (cbn; rewrite map_length, seq_length; lia).
    split.
    + intros ->. rewrite nth_error_app2 by (rewrite L; cbn; lia). rewrite L.
      replace (S i * S n - S n)%nat with (i * S n)%nat by (cbn; lia). apply I1; reflexivity.
    + intros tb vb H1 H2. cbn [nth_error] in H2. rewrite nth_error_app2 by (rewrite L; cbn; lia). rewrite L.
      replace (S i * S n + j - S n)%nat with (i * S n + j)%nat by (cbn; lia). apply I2; assumption.
Qed.

Lemma expand_0 l : expand 0 l = l.
Proof.
  induction l as [|[ta va] [|[tb vb] r] IH]; [reflexivity..|].
  change (expand 0 ((ta, va) :: (tb, vb) :: r)) with ((ta, va) :: expand 0 ((tb, vb) :: r)).
  rewrite IH. reflexivity.
Qed.

Lemma Inc_map_lin ta tb n k : ta < tb -> forall j,
  Inc (map (fun j => ta + qn j / qn (S n) * (tb - ta)) (List.seq j k)).
Proof.
  intros L. induction k as [|k IH]; intro j; cbn [List.seq map]; [constructor|].
  constructor; [apply IH|]. rewrite Forall_forall. intros x Hx. apply in_map_iff in Hx as (m & <- & Hm).
  apply in_seq in Hm. assert (B : qn j < qn m) by (apply qn_lt; lia). pose proof (qn_S_pos n) as P.
  pose proof (qn_S_neq n) as Z.
  assert (E : qn m / qn (S n) - qn j / qn (S n) = (qn m - qn j) * / qn (S n)) by (field; exact Z).
  assert (I : 0 < / qn (S n)).
  { assert (E1 : / qn (S n) * qn (S n) = 1) by (field; exact Z).
    destruct (Qclt_le_dec 0 (/ qn (S n))) as [?|C]; [assumption|exfalso].
    assert (/ qn (S n) * qn (S n) <= 0 * qn (S n)) by (apply Qcmult_le_compat_r; [exact C|apply Qclt_le_weak; exact P]). qlra. }
  assert (0 < (qn m - qn j) * / qn (S n)) by (apply Qcmul_pos; [qlra|exact I]).
  assert (0 < (qn m / qn (S n) - qn j / qn (S n)) * (tb - ta)) by (apply Qcmul_pos; qlra).
  assert (E3 : (qn m / qn (S n) - qn j / qn (S n)) * (tb - ta) =
     ta + qn m / qn (S n) * (tb - ta) - (ta + qn j / qn (S n) * (tb - ta))) by ring.
  rewrite E3 in H0. qlra.
Qed.

Lemma expand_bounds n l : Inc (map fst l) -> forall x, In x (map fst (expand n l)) ->
  match l with [] => False | (t0, _) :: _ => t0 <= x end.
Proof.
  induction l as [|[ta va] r IH]; intros I x Hx; [destruct Hx|].
  destruct r as [|[tb vb] r]; [destruct Hx as [<-|[]]; apply Qcle_refl|].
  change (expand n ((ta, va) :: (tb, vb) :: r)) with
      ((ta, va) :: map (fun j => (ta + qn j / qn (S n) * (tb - ta), blend (qn j / qn (S n)) va vb)) (List.seq 1 n)
          ++ expand n ((tb, vb) :: r)) in Hx.
  cbn [map fst] in Hx, I. apply Inc_cons2 in I as [L I]. destruct Hx as [<-|Hx]; [apply Qcle_refl|].
  rewrite map_app, in_app_iff, map_map in Hx. destruct Hx as [Hx|Hx].
  - apply in_map_iff in Hx as (j & <- & Hj). apply in_seq in Hj. cbn [fst].
    destruct (frac_pos j n ltac:(lia)) as [P _].
    assert (0 < qn j / qn (S n) * (tb - ta)) by (apply Qcmul_pos; qlra). qlra.
  - specialize (IH I x Hx). qlra.
Qed.

Lemma expand_Inc n l : Inc (map fst l) -> Inc (map fst (expand n l)).
Proof.
  induction l as [|[ta va] r IH]; intro I; [constructor|].
  destruct r as [|[tb vb] r]; [exact I|].
  change (expand n ((ta, va) :: (tb, vb) :: r)) with
      (((ta, va) :: map (fun j => (ta + qn j / qn (S n) * (tb - ta), blend (qn j / qn (S n)) va vb)) (List.seq 1 n))
          ++ expand n ((tb, vb) :: r)).
  cbn [map fst] in I. apply Inc_cons2 in I as [L I]. rewrite map_app. apply Inc_app; [|apply IH; exact I|].
  - cbn [map fst]. rewrite map_map. cbn [fst]. constructor; [apply Inc_map_lin; exact L|].
    rewrite Forall_forall. intros x Hx. apply in_map_iff in Hx as (j & <- & Hj). apply in_seq in Hj.
    destruct (frac_pos j n ltac:(lia)) as [P _].
    assert (0 < qn j / qn (S n) * (tb - ta)) by (apply Qcmul_pos; qlra). qlra.
  - intros x y Hx Hy. pose proof (expand_bounds n ((tb, vb) :: r) I y Hy) as B. cbn in B.
    cbn [map fst] in Hx. destruct Hx as [<-|Hx]; [qlra|]. rewrite map_map in Hx.
    apply in_map_iff in Hx as (j & <- & Hj). apply in_seq in Hj. cbn [fst].
    destruct (frac_pos j n ltac:(lia)) as [_ Q].
    assert (0 < (1 - qn j / qn (S n)) * (tb - ta)) by (apply Qcmul_pos; qlra).
    assert (E : (1 - qn j / qn (S n)) * (tb - ta) = tb - (ta + qn j / qn (S n) * (tb - ta))) by ring.
    rewrite E in H. qlra.
Qed.

Lemma rev_map_head {A B} (f : A -> B) (l : list A) x r : rev l = x :: r ->
  rev (map f l) = f x :: map f r.
Proof. intro H. rewrite <- map_rev, H. reflexivity. Qed.

Lemma upsample_spec (a : traj) n : WF a -> tss a <> [] ->
  upsample a n = Ok (mkSeq (map fst (expand n (iter a))) (map snd (expand n (iter a))) true).
Proof.
  intros W Ne. unfold upsample. pose proof (iter_fst a W) as F. pose proof (iter_snd a W) as Sn.
  destruct (up_loop_spec a n W (iter a) O eq_refl) as (p & Ep & Hp). rewrite F in Ep. rewrite Ep.
  destruct (rev (iter a)) as [|[t1 v1] r] eqn:Er.
  { apply (proj1 (rev_nil_iff _)) in Er. rewrite <- F, Er in Ne. contradiction. }
  cbn [item_pred]. rewrite <- F at 1. rewrite (rev_map_head fst _ _ _ Er). cbn [fst].
  assert (A : at_ a t1 = Ok v1).
  { apply at_some; [exact W|]. apply rev_head in Er. unfold iter in Er at 1. apply nth_error_combine in Er. eauto. }
  rewrite A.
  assert (E1 : map fst p ++ [t1] = map fst (expand n (iter a))) by (rewrite <- Hp, map_app; reflexivity).
  assert (E2 : map snd p ++ [v1] = map snd (expand n (iter a))) by (rewrite <- Hp, map_app; reflexivity).
  rewrite E1, E2. apply new_pairs. apply expand_Inc. rewrite F. exact (proj2 W).
Qed.

Lemma upsample_empty (a : traj) n : tss a = [] -> upsample a n = Err PyIndexError.
Proof. intro H. unfold upsample. rewrite H. reflexivity. Qed.
