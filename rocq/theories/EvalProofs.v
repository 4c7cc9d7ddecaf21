(** Lemmas on evaluation metrics. *)
From Coq Require Import String Reals Lra Psatz List Bool ZArith Lia Arith QArith Qcanon Sorted ListDec.
From Verif Require Import Base Num SeqModel SeqSpec SeqProofs SeqProofs2 R2 GeoModel GeoSpec GeoProofs LaneModel LaneSpec LaneProofs EvalModel EvalSpec.
Import ListNotations.

(** *** Time windows *)
Lemma too_early_iff r t : too_early r t = true <-> exists a, fst r = Some a /\ (t < a)%Qc.
Proof.
  unfold too_early. destruct (fst r) as [a|]; split; intro H; try discriminate.
  - exists a. split; [reflexivity|]. apply qltb_lt. exact H.
  - destruct H as (b & E & H). injection E as <-. apply qltb_lt. exact H.
  - destruct H as (b & E & _). discriminate.
Qed.
Lemma too_late_iff r t : too_late r t = true <-> exists b, snd r = Some b /\ (b < t)%Qc.
Proof.
  unfold too_late. destruct (snd r) as [a|]; split; intro H; try discriminate.
  - exists a. split; [reflexivity|]. apply qltb_lt. exact H.
  - destruct H as (b & E & H). injection E as <-. apply qltb_lt. exact H.
  - destruct H as (b & E & _). discriminate.
Qed.
Lemma range_cases r t : in_range r t <-> too_early r t = false /\ too_late r t = false.
Proof.
  split.
  - intros [H1 H2]. split.
    + destruct (too_early r t) eqn:E; [|reflexivity]. apply too_early_iff in E as (a & Ea & L). exfalso. exact (Qclt_not_le _ _ L (H1 a Ea)).
    + destruct (too_late r t) eqn:E; [|reflexivity]. apply too_late_iff in E as (a & Ea & L). exfalso. exact (Qclt_not_le _ _ L (H2 a Ea)).
  - intros [H1 H2]. split; intros a Ea; apply Qcnot_lt_le; intro L.
    + rewrite (proj2 (too_early_iff r t) (ex_intro _ a (conj Ea L))) in H1. discriminate.
    + rewrite (proj2 (too_late_iff r t) (ex_intro _ a (conj Ea L))) in H2. discriminate.
Qed.

(** *** Jerk *)
Section Jerk.
Context {U : Type} (acc : U -> Qc).
Open Scope Qc_scope.
Definition slope (it : iterate_dt U) : Qc := qabs ((acc (it_v1 it) - acc (it_v0 it)) / (it_t1 it - it_t0 it)).
Lemma jerk_spec r l : StronglySorted Qclt (map it_t1 l) -> forall m, 
  m <= jerk_loop acc r m l /\ (forall it, In it l -> in_range r (it_t1 it) -> slope it <= jerk_loop acc r m l) /\
  (jerk_loop acc r m l = m \/ exists it, In it l /\ in_range r (it_t1 it) /\ jerk_loop acc r m l = slope it).
Proof.
  induction l as [|it l IH]; intros S m; cbn [jerk_loop].
  - split; [apply Qcle_refl|]. split; [intros it []|left; reflexivity].
  - cbn [map] in S. apply StronglySorted_inv in S as [S F]. destruct (too_early r (it_t1 it)) eqn:E1; [|destruct (too_late r (it_t1 it)) eqn:E2].
    + destruct (IH S m) as (A & B & C). split; [exact A|]. split.
      * intros i [<-|I] R; [|exact (B i I R)]. apply range_cases in R as [R _]. congruence.
      * destruct C as [C|(i & I & C)]; [left; exact C|right; exists i; split; [right; exact I|exact C]].
    + split; [apply Qcle_refl|]. split; [|left; reflexivity]. intros i I R. exfalso.
      apply too_late_iff in E2 as (b & Eb & Lb). destruct R as [_ R]. specialize (R b Eb). destruct I as [<-|I].
      * apply (Qclt_not_le _ _ Lb R).
      * rewrite Forall_forall in F. specialize (F (it_t1 i) (in_map _ _ _ I)). apply (Qclt_not_le _ _ (Qclt_trans _ _ _ Lb F) R).
    + fold (slope it). set (m' := if qltb m (slope it) then slope it else m).
      assert (M : m <= m' /\ slope it <= m' /\ (m' = m \/ m' = slope it)).
      { unfold m'. destruct (qltb_spec m (slope it)) as [L|L]; [split; [apply Qclt_le_weak; exact L|]; split; [apply Qcle_refl|right; reflexivity]|split; [apply Qcle_refl|]; split; [exact L|left; reflexivity]]. }
      destruct M as (M1 & M2 & M3). destruct (IH S m') as (A & B & C). split; [eapply Qcle_trans; eassumption|]. split.
      * intros i [<-|I] R; [eapply Qcle_trans; eassumption|exact (B i I R)].
      * destruct C as [C|(i & I & R & C)]; [|right; exists i; split; [right; exact I|split; assumption]].
        destruct M3 as [M3|M3]; [left; congruence|right; exists it; split; [left; reflexivity|]; split; [apply range_cases; split; assumption|congruence]].
Qed.
End Jerk.

Lemma adj_in_adjacent {X} (s : SeqModel.seq X) it : In it (adj (iter s)) -> adjacent s (it_t0 it) (it_v0 it) (it_t1 it) (it_v1 it) /\ it_dt it = (it_t1 it - it_t0 it)%Qc.
Proof.
  intro I. apply In_nth_error in I as (i & E). apply adj_nth in E as (t0 & v0 & t1 & v1 & H0 & H1 & ->). cbn. split; [exists i; split; assumption|reflexivity].
Qed.
Lemma adjacent_in_adj {X} (s : SeqModel.seq X) t0 v0 t1 v1 : adjacent s t0 v0 t1 v1 -> In (mkIt t0 t1 (t1 - t0)%Qc v0 v1) (adj (iter s)).
Proof.
  intros (i & H0 & H1). destruct (nth_error (adj (iter s)) i) as [it|] eqn:E.
  - pose proof (nth_error_In _ _ E) as I. apply adj_nth in E as (a & b & c & d & A & B & ->). rewrite A in H0. rewrite B in H1. injection H0 as <- <-. injection H1 as <- <-. exact I.
  - apply nth_error_None in E. rewrite adj_length in E. assert (S i < length (iter s))%nat by (apply nth_error_Some; congruence). lia.
Qed.
Lemma iterate_typed {X} (s : SeqModel.seq X) : typed s = true -> iterate_with_dt s = Ok (adj (iter s)).
Proof. intro T. unfold iterate_with_dt. rewrite T. destruct (adj (iter s)); reflexivity. Qed.
Lemma adj_t1_sorted {X} (s : SeqModel.seq X) : WF s -> StronglySorted Qclt (map it_t1 (adj (iter s))).
Proof. intro W. rewrite adj_t1, iter_fst by exact W. apply Inc_tl. apply W. Qed.

(** *** Distance *)
Open Scope R_scope.
Lemma dist_formula (a b : vec) : sqrt ((fst b - fst a) ^ 2 + (snd b - snd a) ^ 2) = vdist a b.
Proof. unfold vdist, vnorm, vdot, vsub. cbn [fst snd]. f_equal. ring. Qed.
Lemma fold_plus {A} (f : A -> R) l a : fold_left (fun d x => d + f x) l a = a + rsum (map f l).
Proof. revert a. induction l as [|x l IH]; intro a; cbn [fold_left map]; [unfold rsum; cbn; lra|]. rewrite IH, rsum_cons. lra. Qed.
Lemma adj_path {X} (pos : X -> vec) (l : list (Qc * X)) :
  rsum (map (fun it => sqrt ((fst (pos (it_v1 it)) - fst (pos (it_v0 it))) ^ 2 + (snd (pos (it_v1 it)) - snd (pos (it_v0 it))) ^ 2)) (adj l)) = path_length (map pos (map snd l)).
Proof.
  induction l as [|[t0 v0] l IH]; [reflexivity|]. destruct l as [|[t1 v1] l]; [reflexivity|].
  change (adj ((t0, v0) :: (t1, v1) :: l)) with (mkIt t0 t1 (t1 - t0)%Qc v0 v1 :: adj ((t1, v1) :: l)). rewrite map_cons, rsum_cons, IH. cbn [it_v0 it_v1]. rewrite dist_formula. reflexivity.
Qed.
Lemma distance_path {X} (pos : X -> vec) (s : SeqModel.seq X) : WF s -> typed s = true -> distance_traveled pos s = Ok (path_length (map pos (vals s))).
Proof.
  intros W T. unfold distance_traveled. rewrite iterate_typed by exact T. cbn [Base.bind]. f_equal. rewrite fold_plus, Rplus_0_l, adj_path, iter_snd by exact W. reflexivity.
Qed.
Lemma vdist_triangle a b c : vdist a c <= vdist a b + vdist b c.
Proof. unfold vdist. replace (vsub a c) with (vadd (vsub a b) (vsub b c)) by (unfold vadd, vsub; cbn; f_equal; ring). apply vnorm_triangle. Qed.
Lemma path_cons a b l : path_length (a :: b :: l) = vdist a b + path_length (b :: l).
Proof. reflexivity. Qed.
Lemma path_nonneg l : 0 <= path_length l.
Proof. induction l as [|a l IH]; [cbn; lra|]. destruct l as [|b l]; [cbn; lra|]. rewrite path_cons. pose proof (vnorm_nonneg (vsub a b)). unfold vdist. lra. Qed.
Lemma path_displacement a l b : vdist a b <= path_length (a :: l ++ [b]).
Proof.
  revert a. induction l as [|c l IH]; intro a; cbn [app]; rewrite path_cons; [cbn [path_length]; lra|]. specialize (IH c). pose proof (vdist_triangle a c b). lra.
Qed.
Lemma path_split l p m : path_length (l ++ p :: m) = path_length (l ++ [p]) + path_length (p :: m).
Proof.
  induction l as [|a l IH]; [cbn [app]; change (path_length [p]) with 0; lra|]. destruct l as [|b l]; cbn [app] in *; rewrite !path_cons; [change (path_length [p]) with 0|]; lra.
Qed.
Lemma vdist_refl a : vdist a a = 0.
Proof. unfold vdist, vnorm, vdot, vsub. cbn [fst snd]. replace (_ + _) with 0 by ring. apply sqrt_0. Qed.
Lemma path_const p l : Forall (eq p) l -> path_length l = 0.
Proof. induction 1 as [|x l <- F IH]; [reflexivity|]. destruct F as [|y l <- F]; [reflexivity|]. rewrite path_cons, vdist_refl. lra. Qed.

(** *** Lanes *)
Definition lanelet_eq_dec : forall a b : lanelet, {a = b} + {a <> b}.
Proof.
  apply list_eq_dec. intros [[[x y] t] r] [[[x' y'] t'] r'].
  destruct (Req_EM_T x x') as [->|N]; [|right; congruence]. destruct (Req_EM_T y y') as [->|N]; [|right; congruence].
  destruct (Req_EM_T t t') as [->|N]; [|right; congruence]. destruct (Req_EM_T r r') as [->|N]; [|right; congruence]. left; reflexivity.
Defined.

Lemma not_NoDup {A} (dec : forall x y : A, {x = y} + {x <> y}) (l : list A) : ~ NoDup l -> exists a l1 l2 l3, l = l1 ++ a :: l2 ++ a :: l3.
Proof.
  induction l as [|x l IH]; intro H; [contradiction H; constructor|]. destruct (in_dec dec x l) as [I|I].
  - apply in_split in I as (l2 & l3 & ->). exists x, [], l2, l3. reflexivity.
  - destruct IH as (a & l1 & l2 & l3 & ->); [intro N; apply H; constructor; assumption|]. exists a, (x :: l1), l2, l3. reflexivity.
Qed.

Section Walk.
Variable n : network.
Variable lane_pose_on : lanelet -> result lane_pose_t.
Notation walk := (walk n lane_pose_on).
Notation walk_body := (walk_body n lane_pose_on).
Definition next (d : lanelet) : option lanelet :=
  match lane_pose_on d with
  | Ok lp => if lp_along_inside lp then None else match walk_body d lp with Ok (Go d' _) => Some d' | _ => None end
  | Err _ => None
  end.
Fixpoint nexts (k : nat) (d : lanelet) : option lanelet := match k with O => Some d | S k => match next d with Some d' => nexts k d' | None => None end end.
Lemma next_in d i l : get_next_dglane l n d = Ok (Some i) -> In i (map cr_dg (n_lanes n)).
Proof.
  unfold get_next_dglane. destruct (get_lanelet_from_dglanelet n d) as [c|]; cbn [bind]; [|discriminate]. destruct (l c) as [|j ?]; [discriminate|].
  destruct (find_by_id n j) as [c'|] eqn:E; [|discriminate]. intro H. injection H as <-. apply in_map. apply find_some in E as [E _]. exact E.
Qed.
Lemma walk_before_go d lp d' lp' : lane_pose_on d = Ok lp -> walk_before n lane_pose_on d lp = Ok (Go d' lp') -> lane_pose_on d' = Ok lp' /\ (d' = d \/ get_predecessor_dglane n d = Ok (Some d')).
Proof.
  intros P. unfold walk_before. destruct (lp_along_before lp); [|intro H; injection H as <- <-; split; [exact P|left; reflexivity]].
  destruct (get_predecessor_dglane n d) as [[d1|]|]; cbn [bind]; try discriminate. destruct (lane_pose_on d1) as [lp1|] eqn:E; cbn [bind]; [|discriminate]. intro H. injection H as <- <-. split; [exact E|right; reflexivity].
Qed.
Lemma walk_body_go d lp d' lp' : lane_pose_on d = Ok lp -> walk_body d lp = Ok (Go d' lp') ->
  lane_pose_on d' = Ok lp' /\ (d' = d \/ In d' (map cr_dg (n_lanes n))) /\ reachable n d d'.
Proof.
  intros P. unfold EvalModel.walk_body. destruct (_ || _); [discriminate|]. destruct (lp_along_after lp).
  - destruct (get_successor_dglane n d) as [[d1|]|] eqn:E1; cbn [bind]; try discriminate. destruct (lane_pose_on d1) as [lp1|] eqn:E; cbn [bind]; [|discriminate]. intro H.
    apply walk_before_go in H as (A & B); [|exact E]. split; [exact A|]. pose proof (next_in _ _ _ E1) as I. assert (R1 : reachable n d d1) by (eapply reach_s; [apply reach_0|left; exact E1]). destruct B as [->|B].
    + split; [right; exact I|exact R1].
    + split; [right; exact (next_in _ _ _ B)|]. eapply reach_s; [exact R1|right; exact B].
  - intro H. apply walk_before_go in H as (A & B); [|exact P]. split; [exact A|]. destruct B as [->|B]; [split; [left; reflexivity|apply reach_0]|]. split; [right; exact (next_in _ _ _ B)|]. eapply reach_s; [apply reach_0|right; exact B].
Qed.
Lemma walk_body_leave d lp lp' : lane_pose_on d = Ok lp -> walk_body d lp = Ok (Leave lp') -> exists d', reachable n d d' /\ lane_pose_on d' = Ok lp'.
Proof.
  intros P. unfold EvalModel.walk_body. destruct (_ || _); [intro H; injection H as <-; exists d; split; [apply reach_0|exact P]|]. 
  assert (WB : forall d lp, lane_pose_on d = Ok lp -> walk_before n lane_pose_on d lp = Ok (Leave lp') -> lp' = lp).
  { clear. intros d lp P. unfold walk_before. destruct (lp_along_before lp); [|discriminate]. destruct (get_predecessor_dglane n d) as [[d1|]|]; cbn [bind]; try discriminate; [destruct (lane_pose_on d1); cbn [bind]; discriminate|]. intro H. injection H as <-. reflexivity. }
  destruct (lp_along_after lp).
  - destruct (get_successor_dglane n d) as [[d1|]|] eqn:E1; cbn [bind]; try discriminate.
    + destruct (lane_pose_on d1) as [lp1|] eqn:E; cbn [bind]; [|discriminate]. intro H. apply WB in H as ->; [|exact E]. exists d1. split; [eapply reach_s; [apply reach_0|left; exact E1]|exact E].
    + intro H. injection H as <-. exists d. split; [apply reach_0|exact P].
  - intro H. apply WB in H as ->; [|exact P]. exists d. split; [apply reach_0|exact P].
Qed.
Lemma next_spec d lp : lane_pose_on d = Ok lp -> forall k, walk (S k) d lp = None <-> exists d' lp', next d = Some d' /\ lane_pose_on d' = Ok lp' /\ walk k d' lp' = None.
Proof.
  intros P k. cbn [EvalModel.walk]. unfold next. rewrite P. destruct (lp_along_inside lp); [split; [discriminate|intros (a & b & H & _); discriminate]|].
  destruct (walk_body d lp) as [[lp'|d' lp']|e] eqn:E; try (split; [discriminate|intros (a & b & H & _); discriminate]).
  destruct (walk_body_go d lp d' lp' P E) as (A & _). split; [intro H; exists d', lp'; auto|]. intros (a & b & H & P' & W). injection H as <-. congruence.
Qed.
Lemma walk_none k : forall d lp, lane_pose_on d = Ok lp -> (walk k d lp = None <-> nexts k d <> None).
Proof.
  induction k as [|k IH]; intros d lp P; [cbn; split; [discriminate|reflexivity]|]. rewrite (next_spec d lp P k). cbn [nexts]. split.
  - intros (d' & lp' & -> & P' & W). apply (IH d' lp' P'). exact W.
  - destruct (next d) as [d'|] eqn:E; [|congruence]. intro H. assert (E' := E). unfold next in E. rewrite P in E. destruct (lp_along_inside lp); [discriminate|]. destruct (walk_body d lp) as [[|d2 lp2]|] eqn:B; try discriminate. injection E as ->.
    destruct (walk_body_go d lp d' lp2 P B) as (A & _). exists d', lp2. split; [reflexivity|]. split; [exact A|]. apply (IH d' lp2 A). exact H.
Qed.
Lemma nexts_add j : forall k d d', nexts j d = Some d' -> nexts (j + k) d = nexts k d'.
Proof. induction j as [|j IH]; intros k d d' H; cbn [nexts plus] in *; [congruence|]. destruct (next d) as [d1|]; [|discriminate]. apply IH. exact H. Qed.
Lemma nexts_le j k d : (j <= k)%nat -> nexts k d <> None -> nexts j d <> None.
Proof.
  intros L H E. revert k d L H E. induction j as [|j IH]; intros k d L H E; [discriminate|]. destruct k as [|k]; [lia|]. cbn [nexts] in *. destruct (next d) as [d'|]; [|contradiction]. apply (IH k d'); [lia|exact H|exact E].
Qed.
Lemma nexts_set d0 k d : nexts k d0 = Some d -> In d (d0 :: map cr_dg (n_lanes n)).
Proof.
  assert (G : forall k e d, In e (d0 :: map cr_dg (n_lanes n)) -> nexts k e = Some d -> In d (d0 :: map cr_dg (n_lanes n))).
  { clear k d. induction k as [|k IH]; intros e d I H; cbn [nexts] in H; [injection H as <-; exact I|]. destruct (next e) as [e'|] eqn:E; [|discriminate]. apply (IH e' d); [|exact H].
    unfold next in E. destruct (lane_pose_on e) as [lp|] eqn:P; [|discriminate]. destruct (lp_along_inside lp); [discriminate|]. destruct (walk_body e lp) as [[|d2 lp2]|] eqn:B; try discriminate. injection E as ->.
    destruct (walk_body_go e lp e' lp2 P B) as (_ & [->|S] & _); [exact I|right; exact S]. }
  apply G. left. reflexivity.
Qed.
Lemma nexts_period d j : (0 < j)%nat -> nexts j d = Some d -> forall k, nexts k d <> None.
Proof.
  intros J H k. induction k as [k IH] using lt_wf_ind. destruct (le_lt_dec k j) as [L|L]; [apply (nexts_le k j); [exact L|congruence]|].
  replace k with (j + (k - j))%nat by lia. rewrite (nexts_add j (k - j) d d H). apply IH. lia.
Qed.
Lemma nexts_bounded d0 : nexts (S (length (n_lanes n))) d0 <> None -> forall k, nexts k d0 <> None.
Proof.
  intro H. set (N := S (length (n_lanes n))) in *.
  assert (D : forall i, (i <= N)%nat -> exists d, nexts i d0 = Some d). { intros i L. pose proof (nexts_le i N d0 L H). destruct (nexts i d0) as [d|]; [exists d; reflexivity|contradiction]. }
  set (get := fun i => match nexts i d0 with Some d => d | None => d0 end). set (visited := map get (List.seq 0 (S N))).
  destruct (NoDup_dec lanelet_eq_dec visited) as [ND|ND].
  - exfalso. assert (L : (length visited <= length (d0 :: map cr_dg (n_lanes n)))%nat).
    { apply NoDup_incl_length; [exact ND|]. intros d I. apply in_map_iff in I as (i & <- & I). apply in_seq in I. destruct (D i ltac:(lia)) as (d & E). unfold get. rewrite E. apply (nexts_set d0 i). exact E. }
    unfold visited in L. rewrite map_length, seq_length in L. cbn [length] in L. rewrite map_length in L. unfold N in L. lia.
  - apply (not_NoDup lanelet_eq_dec) in ND as (a & l1 & l2 & l3 & E).
    set (i := length l1). set (j := (length l1 + S (length l2))%nat).
    assert (LV : length visited = S N) by (unfold visited; rewrite map_length, seq_length; reflexivity).
    assert (LJ : (j <= N)%nat). { rewrite E in LV. rewrite app_length in LV. cbn [length] in LV. rewrite app_length in LV. cbn [length] in LV. unfold j. lia. }
    assert (Gi : forall x, (x <= N)%nat -> nth_error visited x = Some (get x)).
    { intros x L. unfold visited. rewrite nth_error_map. rewrite (nth_error_nth' _ 0%nat) by (rewrite seq_length; lia). rewrite seq_nth by lia. reflexivity. }
    assert (A : get i = a). { assert (Q : nth_error visited i = Some a) by (rewrite E; unfold i; rewrite nth_error_app2 by lia; rewrite Nat.sub_diag; reflexivity). rewrite Gi in Q by (unfold i, j in *; lia). congruence. }
    assert (B : get j = a). { assert (Q : nth_error visited j = Some a). { rewrite E. unfold j. rewrite nth_error_app2 by lia. replace (length l1 + S (length l2) - length l1)%nat with (S (length l2)) by lia. cbn [nth_error]. rewrite nth_error_app2 by lia. rewrite Nat.sub_diag. reflexivity. } rewrite Gi in Q by exact LJ. congruence. }
    destruct (D i ltac:(unfold i, j in *; lia)) as (di & Ei). destruct (D j LJ) as (dj & Ej). unfold get in A, B. rewrite Ei in A. rewrite Ej in B. subst di dj.
    assert (P : nexts (S (length l2)) a = Some a). { rewrite <- (nexts_add i (S (length l2)) d0 a Ei). exact Ej. }
    intro k. destruct (le_lt_dec k i) as [L|L]; [apply (nexts_le k i); [exact L|congruence]|]. replace k with (i + (k - i))%nat by lia. rewrite (nexts_add i (k - i) d0 a Ei). apply (nexts_period a (S (length l2))); [lia|exact P].
Qed.
Lemma walk_some k : forall d lp lp', lane_pose_on d = Ok lp -> walk k d lp = Some (Ok lp') -> exists d', reachable n d d' /\ lane_pose_on d' = Ok lp'.
Proof.
  induction k as [|k IH]; intros d lp lp' P W; [discriminate|]. cbn [EvalModel.walk] in W. destruct (lp_along_inside lp); [injection W as <-; exists d; split; [apply reach_0|exact P]|].
  destruct (walk_body d lp) as [[lp1|d1 lp1]|e] eqn:B; [|destruct (walk_body_go d lp d1 lp1 P B) as (P1 & _ & R)|discriminate].
  - injection W as <-. exact (walk_body_leave d lp lp1 P B).
  - destruct (IH d1 lp1 lp' P1 W) as (d2 & R2 & P2). exists d2. split; [|exact P2]. clear - R R2. induction R2 as [|x y R2 IH L]; [exact R|]. eapply reach_s; [exact IH|exact L].
Qed.
Lemma walk_more k k' d lp r : (k <= k')%nat -> walk k d lp = Some r -> walk k' d lp = Some r.
Proof.
  revert k' d lp. induction k as [|k IH]; intros k' d lp L W; [discriminate|]. destruct k' as [|k']; [lia|]. cbn [EvalModel.walk] in *. destruct (lp_along_inside lp); [exact W|]. destruct (walk_body d lp) as [[lp1|d1 lp1]|e]; [exact W| |exact W]. apply IH; [lia|exact W].
Qed.
End Walk.

(** *** Time to collision *)
Fixpoint ftime (k : nat) : flt := match k with O => f_zero | S k => f_add (ftime k) f_tenth end.
Lemma ftime_late : forall k, (k <= 30)%nat -> SpecFloat.SFltb f_three (ftime k) = (k =? 30)%nat.
Proof. intros k L. do 31 (destruct k as [|k]; [vm_compute; reflexivity|]). lia. Qed.
Definition close_to (x : flt) (k : Z) : bool :=
  match x with
  | SpecFloat.S754_zero _ => (k =? 0)%Z
  | SpecFloat.S754_finite false m e => (e <=? 0)%Z && (Z.abs (10 * Zpos m - k * 2 ^ (- e)) * 10 ^ 15 <=? 20 * 2 ^ (- e))%Z
  | _ => false
  end.
Lemma close_to_ok x k : close_to x k = true -> Rabs (f_val x - IZR k / 10) <= 2 / 10 ^ 15.
Proof.
  destruct x as [s|s| |[|] m e]; cbn [close_to]; try discriminate.
  - intro H. apply Z.eqb_eq in H as ->. cbn [f_val]. replace (0 - 0 / 10) with 0 by lra. rewrite Rabs_R0. lra.
  - intro H. apply andb_true_iff in H as [H1 H2]. apply Z.leb_le in H1, H2. cbn [f_val]. rewrite Rmult_1_l.
    apply IZR_le in H2. rewrite !mult_IZR, abs_IZR, minus_IZR, !mult_IZR in H2. set (g := (2 ^ (- e))%Z) in *.
    assert (G : (0 < g)%Z) by (apply Z.pow_pos_nonneg; lia). assert (G' : 0 < IZR g) by (apply (IZR_lt 0); exact G).
    assert (P : powerRZ 2 e = / IZR g).
    { unfold g. generalize (Z2Nat.id (- e) ltac:(lia)). generalize (Z.to_nat (- e)). intros a A. rewrite <- A. replace e with (- Z.of_nat a)%Z by lia. rewrite powerRZ_neg' by lra. rewrite <- pow_powerRZ. rewrite <- pow_IZR. reflexivity. }
    rewrite P. replace (IZR (Zpos m) * / IZR g - IZR k / 10) with ((10 * IZR (Zpos m) - IZR k * IZR g) * / (10 * IZR g)) by (field; lra).
    rewrite Rabs_mult, (Rabs_right (/ (10 * IZR g))) by (apply Rle_ge, Rlt_le, Rinv_0_lt_compat; lra).
    replace (IZR (10 ^ 15)) with (10 ^ 15) in H2 by (rewrite pow_IZR; reflexivity).
    apply (Rmult_le_reg_r (10 * IZR g * 10 ^ 15)); [apply Rmult_lt_0_compat; [lra|apply pow_lt; lra]|].
    replace (2 / 10 ^ 15 * (10 * IZR g * 10 ^ 15)) with (20 * IZR g) by (field; apply pow_nonzero; lra).
    replace (Rabs (10 * IZR (Zpos m) - IZR k * IZR g) * / (10 * IZR g) * (10 * IZR g * 10 ^ 15)) with (Rabs (10 * IZR (Zpos m) - IZR k * IZR g) * 10 ^ 15) by (field; lra). exact H2.
Qed.
Lemma ftime_close : forall k, (k <= 30)%nat -> Rabs (f_val (ftime k) - INR k / 10) <= 2 / 10 ^ 15.
Proof. intros k L. rewrite INR_IZR_INZ. apply close_to_ok. do 31 (destruct k as [|k]; [vm_compute; reflexivity|]). lia. Qed.

Lemma translate_add p a b : translate (translate p a) b = translate p (vadd a b).
Proof. unfold translate. rewrite map_map. apply map_ext. intro v. unfold vadd. cbn [fst snd]. f_equal; ring. Qed.
Lemma ttc_loop_spec intersects p1 p2 delta : forall m k fuel, (k + m = 30)%nat -> (m < fuel)%nat ->
  let hit j := intersects p1 (translate p2 (vscale (INR j) delta)) in
  (exists j, (k <= j <= 30)%nat /\ hit j = true /\ (forall i, (k <= i < j)%nat -> hit i = false) /\ ttc_poly_loop intersects fuel p1 delta (ftime k) (translate p2 (vscale (INR k) delta)) = Some (Some (ftime j))) \/
  ((forall i, (k <= i <= 30)%nat -> hit i = false) /\ ttc_poly_loop intersects fuel p1 delta (ftime k) (translate p2 (vscale (INR k) delta)) = Some None).
Proof.
  induction m as [|m IH]; intros k fuel K F hit; (destruct fuel as [|fuel]; [lia|]); cbn [ttc_poly_loop]; fold (hit k); destruct (hit k) eqn:H.
  1,3: left; exists k; split; [lia|]; split; [exact H|]; split; [intros; lia|reflexivity].
  - rewrite ftime_late by lia. replace k with 30%nat by lia. right. split; [|reflexivity]. intros i Hi. replace i with k by lia. exact H.
  - rewrite ftime_late by lia. rewrite (proj2 (Nat.eqb_neq k 30)) by lia. 
    assert (E : translate (translate p2 (vscale (INR k) delta)) delta = translate p2 (vscale (INR (S k)) delta)). { rewrite translate_add. f_equal. rewrite S_INR. unfold vadd, vscale. cbn [fst snd]. f_equal; ring. }
    rewrite E. change (f_add (ftime k) f_tenth) with (ftime (S k)). destruct (IH (S k) fuel ltac:(lia) ltac:(lia)) as [(j & J & Hj & N & L)|(N & L)].
    + left. exists j. split; [lia|]. split; [exact Hj|]. split; [|exact L]. intros i Hi. destruct (Nat.eq_dec i k) as [->|Ne]; [exact H|apply N; lia].
    + right. split; [|exact L]. intros i Hi. destruct (Nat.eq_dec i k) as [->|Ne]; [exact H|apply N; lia].
Qed.
Lemma footprint_place o p th : map (SE2_apply_T2 (SE2_from_translation_angle p th)) o = footprint o p th.
Proof. unfold footprint. apply map_ext. intro v. unfold SE2_apply_T2, SE2_from_translation_angle. cbn [m00 m01 m02 m10 m11 m12]. f_equal; ring. Qed.
Lemma footprint_coast o p th v t : footprint o (coast p th v t) th = translate (footprint o p th) (t * v * cos th, t * v * sin th).
Proof. unfold footprint, translate, coast. rewrite map_map. apply map_ext. intro x. unfold vadd. cbn [fst snd]. f_equal; ring. Qed.
Lemma relative_motion meet : translation_invariant meet -> forall p q a b c, vadd a c = b -> meet (translate p a) (translate q b) = meet p (translate q c).
Proof. intros T0 p q a b c <-. assert (T : forall p q d, meet (translate p d) (translate q d) = meet p q) by exact T0. rewrite <- (T p (translate q c) a), translate_add. f_equal. f_equal. unfold vadd. cbn [fst snd]. f_equal; ring. Qed.

(** *** Boxes *)
Lemma lowest_le c p v : In v p -> lowest c p <= c v.
Proof.
  destruct p as [|w p]; [intros []|]. cbn [lowest]. 
  assert (G : forall l a, fold_left (fun m w => Rmin m (c w)) l a <= a /\ forall u, In u l -> fold_left (fun m w => Rmin m (c w)) l a <= c u).
  { induction l as [|x l IH]; intro a; cbn [fold_left]; [split; [lra|intros u []]|]. destruct (IH (Rmin a (c x))) as [A B]. pose proof (Rmin_l a (c x)). pose proof (Rmin_r a (c x)). split; [lra|]. intros u [<-|I]; [lra|exact (B u I)]. }
  destruct (G p (c w)) as [A B]. intros [<-|I]; [exact A|exact (B v I)].
Qed.
Lemma lowest_in c p : p <> [] -> exists v, In v p /\ lowest c p = c v.
Proof.
  destruct p as [|w p]; [congruence|intros _]. cbn [lowest].
  assert (G : forall l a, fold_left (fun m w => Rmin m (c w)) l a = a \/ exists u, In u l /\ fold_left (fun m w => Rmin m (c w)) l a = c u).
  { induction l as [|x l IH]; intro a; cbn [fold_left]; [left; reflexivity|]. destruct (IH (Rmin a (c x))) as [A|(u & I & A)]; [|right; exists u; split; [right; exact I|exact A]]. rewrite A. unfold Rmin. destruct (Rle_dec a (c x)); [left; reflexivity|right; exists x; split; [left; reflexivity|reflexivity]]. }
  destruct (G p (c w)) as [A|(u & I & A)]; [exists w; split; [left; reflexivity|exact A]|exists u; split; [right; exact I|exact A]].
Qed.
Lemma lowest_val c p m : (forall v, In v p -> m <= c v) -> (exists v, In v p /\ c v = m) -> lowest c p = m.
Proof.
  intros L (v & I & E). destruct (lowest_in c p) as (u & J & F); [intros ->; contradiction|]. pose proof (lowest_le c p v I). specialize (L u J). lra.
Qed.
Lemma box_lowest p x0 x1 y0 y1 : is_box p x0 x1 y0 y1 -> lowest fst p = x0 /\ lowest snd p = y0 /\ lowest (fun v => - fst v) p = - x1 /\ lowest (fun v => - snd v) p = - y1.
Proof.
  intros (X & Y & B). split; [|split; [|split]]; (apply lowest_val; [intros v I; apply B in I as [->|[->|[->| ->]]]; cbn [fst snd]; lra|]).
  1,2: exists (x0, y0); split; [apply B; auto|reflexivity]. all: exists (x1, y1); split; [apply B; auto|reflexivity].
Qed.
Lemma box_meet_right : right_on_boxes box_meet.
Proof.
  intros p q x0 x1 y0 y1 a0 a1 b0 b1 P Q. assert (NP : p <> []) by (intros ->; destruct P as (_ & _ & B); apply (B (x0, y0)); auto). assert (NQ : q <> []) by (intros ->; destruct Q as (_ & _ & B); apply (B (a0, b0)); auto). apply box_lowest in P as (P1 & P2 & P3 & P4). apply box_lowest in Q as (Q1 & Q2 & Q3 & Q4). destruct p as [|p0 p]; [contradiction|]. destruct q as [|q0 q]; [contradiction|]. unfold box_meet. cbv zeta. rewrite P1, P2, P3, P4, Q1, Q2, Q3, Q4, !Ropp_involutive, !andb_true_iff, !leb_iff. tauto.
Qed.
Lemma lowest_translate c p d k : p <> [] -> (forall v, c (vadd v d) = c v + k) -> lowest c (translate p d) = lowest c p + k.
Proof.
  intros N H. destruct (lowest_in c p N) as (u & J & F). apply lowest_val.
  - intros v I. apply in_map_iff in I as (w & <- & I). rewrite H. pose proof (lowest_le c p w I). lra.
  - exists (vadd u d). split; [apply (in_map (fun v => vadd v d)); exact J|]. rewrite H. lra.
Qed.
Lemma leb_eq a b c d : (a <= b <-> c <= d) -> leb a b = leb c d.
Proof. intro H. destruct (leb a b) eqn:E; symmetry; [apply leb_iff, H, leb_iff, E|apply leb_false; apply leb_false in E; apply Rnot_le_lt; intro X; apply H in X; lra]. Qed.
Lemma box_meet_translation : translation_invariant box_meet.
Proof.
  intros p q d. change (box_meet (translate p d) (translate q d) = box_meet p q). destruct p as [|p0 p]; [destruct q; reflexivity|]. destruct q as [|q0 q]; [reflexivity|].
  assert (N1 : p0 :: p <> []) by discriminate. assert (N2 : q0 :: q <> []) by discriminate. remember (p0 :: p) as P eqn:EP. remember (q0 :: q) as Q eqn:EQ.
  assert (U : forall P Q : polygon, P <> [] -> Q <> [] -> box_meet P Q = leb (lowest fst P) (- lowest (fun v => - fst v) Q) && leb (lowest fst Q) (- lowest (fun v => - fst v) P) && leb (lowest snd P) (- lowest (fun v => - snd v) Q) && leb (lowest snd Q) (- lowest (fun v => - snd v) P)).
  { intros [|? ?] [|? ?] A B; try contradiction. reflexivity. }
  assert (T : forall P : polygon, P <> [] -> translate P d <> []) by (intros [|? ?] A; [contradiction|discriminate]).
  rewrite !U by auto.
  assert (L : forall P : polygon, P <> [] -> lowest fst (translate P d) = lowest fst P + fst d /\ lowest snd (translate P d) = lowest snd P + snd d /\ lowest (fun v => - fst v) (translate P d) = lowest (fun v => - fst v) P + - fst d /\ lowest (fun v => - snd v) (translate P d) = lowest (fun v => - snd v) P + - snd d).
  { intros P' A. split; [|split; [|split]]; apply lowest_translate; try exact A; intro v; unfold vadd; cbn [fst snd]; ring. }
  destruct (L P N1) as (-> & -> & -> & ->). destruct (L Q N2) as (-> & -> & -> & ->).
  f_equal; [f_equal; [f_equal|]|]; apply leb_eq; lra.
Qed.
Lemma car_box a b p : 0 <= a -> 0 <= b -> is_box (footprint (car a b) p 0) (fst p - a) (fst p + a) (snd p - b) (snd p + b).
Proof.
  intros A B. split; [lra|]. split; [lra|]. intro v. unfold footprint, car. cbn [map In fst snd]. rewrite cos_0, sin_0. split.
  - intros [<-|[<-|[<-|[<-|[]]]]]; [right; right; left|right; left|left|right; right; right]; f_equal; ring.
  - intros [->|[->|[->| ->]]]; [right; right; left|right; left|left|right; right; right; left]; f_equal; ring.
Qed.
Lemma car_box_down a b p : 0 <= a -> 0 <= b -> is_box (footprint (car a b) p (- (PI / 2))) (fst p - b) (fst p + b) (snd p - a) (snd p + a).
Proof.
  intros A B. split; [lra|]. split; [lra|]. intro v. unfold footprint, car. cbn [map In fst snd]. rewrite cos_neg, sin_neg, cos_PI2, sin_PI2. split.
  - intros [<-|[<-|[<-|[<-|[]]]]]; [right; left|left|right; right; right|right; right; left]; f_equal; ring.
  - intros [->|[->|[->| ->]]]; [right; left|left|right; right; right; left|right; right; left]; f_equal; ring.
Qed.

(** *** Metrics *)
Lemma str_eqb_true a b : String.eqb a b = true <-> a = b.
Proof. apply String.eqb_eq. Qed.
Lemma aget_in {V} (l : list (string * V)) k v : dict l -> (aget String.eqb l k = Some v <-> In (k, v) l).
Proof.
  unfold dict. induction l as [|[k' v'] l IH]; cbn [aget map fst In]; intro N; [split; [discriminate|intros []]|]. apply NoDup_cons_iff in N as [N1 N2]. destruct (String.eqb_spec k' k) as [->|Ne].
  - split; [intro H; injection H as <-; left; reflexivity|]. intros [H|H]; [injection H as <-; reflexivity|]. exfalso. apply N1. change k with (fst (k, v)). apply in_map. exact H.
  - rewrite IH by exact N2. split; [intro H; right; exact H|]. intros [H|H]; [congruence|exact H].
Qed.
Lemma agetE_in {V} (l : list (string * V)) k v : dict l -> (agetE String.eqb l k = Ok v <-> In (k, v) l).
Proof. intro N. unfold agetE. rewrite <- aget_in by exact N. destruct (aget String.eqb l k); split; congruence. Qed.
Lemma aget_none {V} (l : list (string * V)) k : aget String.eqb l k = None <-> ~ In k (map fst l).
Proof.
  induction l as [|[k' v'] l IH]; cbn [aget map fst In]; [tauto|]. destruct (String.eqb_spec k' k) as [->|Ne]; [split; [discriminate|intro H; contradiction H; left; reflexivity]|]. rewrite IH. tauto.
Qed.

Section Metrics.
Context {St Md Gl : Type}.
Variable logs_at : Qc -> result (list (string * St)).
Variable missions : list (string * Gl).
Variable models : list (string * Md).
Variable is_fulfilled : Gl -> St -> result bool.
Variables (pos : St -> vec) (vx psi : St -> R) (outline : Md -> polygon).
Variable pdist : polygon -> polygon -> R.
Variable intersects : polygon -> polygon -> bool.
Hypothesis NM : dict missions.
Hypothesis NO : dict models.
Lemma remove_spec l l' : remove_finished_players missions is_fulfilled l = Ok l' ->
  (forall name x, In (name, x) l' <-> In (name, x) l /\ exists g, In (name, g) missions /\ is_fulfilled g x = Ok false) /\ (dict l -> dict l').
Proof.
  revert l'. induction l as [|[n x] l IH]; intros l' H; cbn [remove_finished_players] in H.
  - injection H as <-. split; [intros; cbn; tauto|intro D; exact D].
  - destruct (agetE String.eqb missions n) as [g|] eqn:G; cbn [LaneModel.bind] in H; [|discriminate]. destruct (is_fulfilled g x) as [f|] eqn:F; cbn [LaneModel.bind] in H; [|discriminate].
    destruct (remove_finished_players missions is_fulfilled l) as [r|]; cbn [LaneModel.bind] in H; [|discriminate]. injection H as <-. destruct (IH r eq_refl) as [A B]. apply agetE_in in G; [|exact NM]. split.
    + intros name y. destruct f; cbn [In]; rewrite A.
      * split; [intros [I Y]; split; [right; exact I|exact Y]|]. intros [[E|I] (g' & G' & F')]; [|split; [exact I|exists g'; auto]]. injection E as <- <-.
        assert (g' = g) as ->. { pose proof (proj2 (aget_in missions n g NM) G) as E1. pose proof (proj2 (aget_in missions n g' NM) G') as E2. congruence. } congruence.
      * split; [intros [E|[I Y]]; [injection E as <- <-; split; [left; reflexivity|exists g; auto]|split; [right; exact I|exact Y]]|]. intros [[E|I] Y]; [left; exact E|right; split; [exact I|exact Y]].
    + intro D. apply NoDup_cons_iff in D as [D1 D2]. specialize (B D2). destruct f; [exact B|]. apply NoDup_cons; [|exact B]. intro I. apply in_map_iff in I as ([n' x'] & E & I). cbn [fst] in E. subst n'. apply A in I as [I _]. apply D1. apply in_map_iff. exists (n, x'). split; [reflexivity|exact I].
Qed.
Lemma get_dist_footprint s1 s2 m1 m2 : get_dist pos psi outline pdist s1 s2 m1 m2 = pdist (footprint (outline m1) (pos s1) (psi s1)) (footprint (outline m2) (pos s2) (psi s2)).
Proof. unfold get_dist. rewrite !footprint_place. reflexivity. Qed.
Lemma ext_le_trans a b c : ext_le a b -> ext_le b c -> ext_le a c.
Proof. destruct a, b, c; cbn; auto; try tauto. lra. Qed.
Lemma ext_le_refl a : ext_le a a.
Proof. destruct a; cbn; auto. lra. Qed.
Lemma ext_ltb_cases a b : (ext_ltb a b = true /\ ext_le a b /\ a <> b) \/ (ext_ltb a b = false /\ ext_le b a).
Proof.
  destruct a as [|x|], b as [|y|]; cbn; try (right; split; [reflexivity|tauto]); try (left; split; [reflexivity|]; split; [tauto|discriminate]).
  destruct (ltb x y) eqn:E; [apply ltb_iff in E; left|apply ltb_false in E; right].
  - split; [reflexivity|]. split; [lra|]. intro H. injection H as ->. lra.
  - split; [reflexivity|lra].
Qed.
Notation mloop := (min_dist_loop models pos psi outline pdist).
Lemma min_loop_spec ego xe me l : forall best d who, mloop ego xe me best l = Ok (d, who) ->
  ext_le d (fst best) /\
  (forall name x m, In (name, x) l -> name <> ego -> In (name, m) models -> ext_le d (Fn (get_dist pos psi outline pdist xe x me m))) /\
  ((d, who) = best \/ exists name x m, In (name, x) l /\ name <> ego /\ In (name, m) models /\ d = Fn (get_dist pos psi outline pdist xe x me m) /\ who = Some name) /\
  (forall name x, In (name, x) l -> name <> ego -> exists m, In (name, m) models).
Proof.
  induction l as [|[n x] l IH]; intros best d who H; cbn [min_dist_loop] in H.
  - injection H as ->. cbn [fst]. split; [apply ext_le_refl|]. split; [intros ? ? ? []|]. split; [left; reflexivity|intros ? ? []].
  - destruct (String.eqb_spec n ego) as [->|Ne].
    + destruct (IH best d who H) as (A & B & C & D). split; [exact A|]. split; [|split].
      * intros name y m [E|I] N; [injection E as <- <-; contradiction|exact (B name y m I N)].
      * destruct C as [C|(name & y & m & I & C)]; [left; exact C|right; exists name, y, m; split; [right; exact I|exact C]].
      * intros name y [E|I] N; [injection E as <- <-; contradiction|exact (D name y I N)].
    + destruct (agetE String.eqb models n) as [m|] eqn:M; cbn [LaneModel.bind] in H; [|discriminate]. apply agetE_in in M; [|exact NO]. set (e := get_dist pos psi outline pdist xe x me m) in *.
      destruct (IH _ d who H) as (A & B & C & D). 
      assert (U : forall m', In (n, m') models -> m' = m). { intros m' M'. pose proof (proj2 (aget_in models n m NO) M) as E1. pose proof (proj2 (aget_in models n m' NO) M') as E2. congruence. }
      assert (Q : ext_le d (fst best) /\ ext_le d (Fn e)).
      { destruct (ext_ltb_cases (Fn e) (fst best)) as [(E & L & _)|(E & L)]; rewrite E in A; cbn [fst] in A; split; try exact A; eapply ext_le_trans; eassumption. }
      split; [apply Q|]. split; [|split].
      * intros name y m' [E|I] N Hm; [injection E as <- <-; rewrite (U m' Hm); apply Q|exact (B name y m' I N Hm)].
      * destruct C as [C|(name & y & m' & I & C)]; [|right; exists name, y, m'; split; [right; exact I|exact C]].
        destruct (ext_ltb (Fn e) (fst best)); [right|left; exact C]. injection C as -> ->. exists n, x, m. split; [left; reflexivity|]. split; [exact Ne|]. split; [exact M|]. split; reflexivity.
      * intros name y [E|I] N; [injection E as <- <-; exists m; exact M|exact (D name y I N)].
Qed.
Notation at_t := (get_min_dist_at_t logs_at missions models is_fulfilled pos psi outline pdist).
Notation apart := (apart logs_at missions models is_fulfilled pos psi outline pdist).
Lemma at_t_spec ego t d who : (forall t l, logs_at t = Ok l -> dict l) -> at_t ego t = Ok (d, who) ->
  (forall name x, apart ego t name x -> ext_le d (Fn x)) /\
  ((d = PInf /\ who = None /\ forall name x, ~ apart ego t name x) \/ exists name x, apart ego t name x /\ d = Fn x /\ who = Some name).
Proof.
  intros DL H. unfold get_min_dist_at_t in H. destruct (logs_at t) as [l|] eqn:L; cbn [LaneModel.bind] in H; [|discriminate]. destruct (remove_finished_players missions is_fulfilled l) as [l'|] eqn:E; cbn [LaneModel.bind] in H; [|discriminate].
  destruct (remove_spec l l' E) as (RS & RD). pose proof (RD (DL t l L)) as D'.
  assert (AC : forall name x, active logs_at missions is_fulfilled t name x <-> In (name, x) l').
  { intros name x. rewrite RS. unfold active. split; [intros (l0 & g & L0 & I & G & F); rewrite L in L0; injection L0 as <-; split; [exact I|exists g; auto]|intros [I (g & G & F)]; exists l, g; auto]. }
  destruct (aget String.eqb l' ego) as [xe|] eqn:EG.
  - apply aget_in in EG; [|exact D']. destruct (agetE String.eqb models ego) as [me|] eqn:ME; cbn [LaneModel.bind] in H; [|discriminate]. apply agetE_in in ME; [|exact NO].
    destruct (min_loop_spec ego xe me l' _ d who H) as (_ & B & C & D).
    assert (AP : forall name x, apart ego t name x <-> exists y m, In (name, y) l' /\ name <> ego /\ In (name, m) models /\ x = get_dist pos psi outline pdist xe y me m).
    { intros name x. unfold EvalSpec.apart. setoid_rewrite AC. setoid_rewrite get_dist_footprint. split.
      - intros (xe' & y & me' & m & I1 & I2 & N & M1 & M2 & Ex). assert (xe' = xe) as -> by (apply (aget_in l' ego xe' D') in I1; apply (aget_in l' ego xe D') in EG; congruence).
        assert (me' = me) as -> by (apply (aget_in models ego me' NO) in M1; apply (aget_in models ego me NO) in ME; congruence). exists y, m. auto.
      - intros (y & m & I & N & M & Ex). exists xe, y, me, m. auto 10. }
    split.
    + intros name x A. apply AP in A as (y & m & I & N & M & ->). exact (B name y m I N M).
    + destruct C as [C|(name & y & m & I & N & M & -> & ->)].
      * injection C as -> ->. left. split; [reflexivity|]. split; [reflexivity|]. intros name x A. apply AP in A as (y & m & I & N & M & ->). exact (B name y m I N M).
      * right. exists name, (get_dist pos psi outline pdist xe y me m). split; [apply AP; exists y, m; auto|]. split; reflexivity.
  - injection H as <- <-. assert (NA : forall name x, ~ apart ego t name x). { intros name x (xe & _ & _ & _ & A & _). apply AC in A. apply aget_none in EG. apply EG. apply in_map_iff. exists (ego, xe). split; [reflexivity|exact A]. }
    split; [intros name x A; destruct (NA name x A)|left; split; [reflexivity|]; split; [reflexivity|exact NA]].
Qed.
Lemma times_spec ego r ts : (forall t l, logs_at t = Ok l -> dict l) -> StronglySorted Qclt ts -> forall best d who w, min_dist_times logs_at missions models is_fulfilled pos psi outline pdist ego r best ts = Ok (d, who, w) ->
  ext_le d (fst (fst best)) /\
  (forall t name x, In t ts -> in_range r t -> apart ego t name x -> ext_le d (Fn x)) /\
  ((d, who, w) = best \/ exists t name x, In t ts /\ in_range r t /\ apart ego t name x /\ d = Fn x /\ who = Some name /\ w = Some t).
Proof.
  intros DL. induction ts as [|t ts IH]; intros S best d who w H; cbn [min_dist_times] in H.
  - injection H as ->. cbn [fst]. split; [apply ext_le_refl|]. split; [intros ? ? ? []|left; reflexivity].
  - apply StronglySorted_inv in S as [S F]. destruct (too_early r t) eqn:E1; [|destruct (too_late r t) eqn:E2].
    + destruct (IH S best d who w H) as (A & B & C). split; [exact A|]. split.
      * intros t' name x [<-|I] R; [apply range_cases in R as [R _]; congruence|exact (B t' name x I R)].
      * destruct C as [C|(t' & n & x & I & C)]; [left; exact C|right; exists t', n, x; split; [right; exact I|exact C]].
    + injection H as ->. cbn [fst]. split; [apply ext_le_refl|]. split; [|left; reflexivity]. intros t' name x I R. exfalso. apply too_late_iff in E2 as (b & Eb & Lb). destruct R as [_ R]. specialize (R b Eb). destruct I as [<-|I].
      * apply (Qclt_not_le _ _ Lb R).
      * rewrite Forall_forall in F. apply (Qclt_not_le _ _ (Qclt_trans _ _ _ Lb (F t' I)) R).
    + assert (RT : in_range r t) by (apply range_cases; split; assumption). destruct (at_t ego t) as [[dt wt]|] eqn:AT; cbn [LaneModel.bind fst snd] in H; [|discriminate].
      destruct (at_t_spec ego t dt wt DL AT) as (A1 & A2). destruct (IH S _ d who w H) as (A & B & C).
      assert (Q : ext_le d (fst (fst best)) /\ ext_le d dt). { destruct (ext_ltb_cases dt (fst (fst best))) as [(E & L & _)|(E & L)]; rewrite E in A; cbn [fst] in A; split; try exact A; eapply ext_le_trans; eassumption. }
      split; [apply Q|]. split.
      * intros t' name x [<-|I] R AP; [eapply ext_le_trans; [apply Q|exact (A1 name x AP)]|exact (B t' name x I R AP)].
      * destruct C as [C|(t' & n & x & I & C)]; [|right; exists t', n, x; split; [right; exact I|exact C]].
        destruct (ext_ltb dt (fst (fst best))) eqn:E; [|left; exact C]. injection C as -> -> ->. destruct A2 as [(-> & _)|(name & x & AP & -> & ->)]; [destruct (fst (fst best)); discriminate|].
        right. exists t, name, x. split; [left; reflexivity|]. auto 8.
Qed.

(** TTC and DRAC *)
Lemma vnorm_sq v : vnorm v * vnorm v = vdot v v.
Proof. unfold vnorm. apply sqrt_sqrt. unfold vdot. nra. Qed.
Lemma skipped_closing xe x : skipped pos vx psi xe x = false <-> closing pos vx psi xe x.
Proof.
  unfold skipped, closing, vel. set (d := vsub (pos x) (pos xe)). set (w := vsub _ _). cbv zeta. pose proof (vnorm_sq d) as SQ. pose proof (vnorm_nonneg d) as NN. destruct (Req_EM_T (vnorm d) 0) as [E|E].
  - split; [intros _; left|reflexivity]. rewrite E in SQ. unfold vdot in SQ. destruct d as [a b]. cbn [fst snd] in SQ. f_equal; nra.
  - assert (NP : 0 < vnorm d) by lra. assert (D0 : d <> (0, 0)). { intro H. apply E. rewrite H. unfold vnorm, vdot. cbn [fst snd]. replace (0 * 0 + 0 * 0) with 0 by ring. apply sqrt_0. }
    assert (RV : vdot w (vscale (/ vnorm d) d) = vdot w d / vnorm d) by (unfold vdot, vscale; cbn [fst snd]; field; exact E). rewrite RV. set (k := vdot w d) in *. set (n := vnorm d) in *.
    destruct (Req_EM_T (k / n) 0) as [Z|Z].
    + split; [discriminate|]. intros [H|[H _]]; [contradiction|]. exfalso. assert (k = 0) by (apply (Rmult_eq_reg_r (/ n)); [unfold Rdiv in Z; lra|apply Rinv_neq_0_compat; lra]). lra.
    + assert (K0 : k <> 0) by (intros ->; apply Z; unfold Rdiv; ring). assert (IN : 0 < / n) by (apply Rinv_0_lt_compat; exact NP). rewrite orb_false_iff, !ltb_false. 
      assert (Q : Rabs (n / (k / n)) = vdot d d / Rabs k). { replace (n / (k / n)) with (n * n / k) by (field; split; [exact E|exact K0]). rewrite SQ. unfold Rdiv. rewrite Rabs_mult, (Rabs_right (vdot d d)) by (unfold vdot; nra). f_equal. apply Rabs_inv. }
      rewrite Q. unfold Rdiv at 1. split.
      * intros [H1 H2]. right. assert (KN : k < 0). { assert (k <= 0) by (apply (Rmult_le_reg_r (/ n)); lra). lra. } split; [exact KN|]. rewrite Rabs_left in H2 by exact KN.
        apply (Rmult_le_reg_r (/ - k)); [apply Rinv_0_lt_compat; lra|]. unfold Rdiv in H2. replace (5 * - k * / - k) with 5 by (field; lra). exact H2.
      * intros [H|[H1 H2]]; [contradiction|]. split; [assert (k * / n < 0 * / n) by (apply Rmult_lt_compat_r; assumption); lra|]. rewrite Rabs_left by exact H1. apply (Rmult_le_reg_r (- k)); [lra|]. unfold Rdiv. replace (vdot d d * / - k * - k) with (vdot d d) by (field; lra). exact H2.
Qed.
Lemma drac_needed v d : needed v d (drac_of v d).
Proof.
  destruct d as [|d|]; cbn [needed drac_of]; try reflexivity. destruct (ltb 0 d) eqn:E; [apply ltb_iff in E; left|apply ltb_false in E; right; split; [lra|reflexivity]].
  split; [exact E|]. exists (v ^ 2 / (2 * d)). split; [reflexivity|field; lra].
Qed.
Lemma needed_fun v d a : needed v d a -> a = drac_of v d.
Proof.
  destruct d as [|d|]; cbn [needed drac_of]; try auto. intros [(P & a' & -> & E)|(P & ->)].
  - rewrite (proj2 (ltb_iff 0 d)) by exact P. f_equal. rewrite E. field. lra.
  - rewrite (proj2 (ltb_false 0 d)) by lra. reflexivity.
Qed.
Definition the_ttc xe me x m := fst (fst (ttc_of pos vx psi outline intersects xe x me m)).
Definition the_dtc xe me x m := snd (fst (ttc_of pos vx psi outline intersects xe x me m)).
Lemma ext_gt_cases a b : (ext_ltb a b = true /\ ext_le a b /\ a <> b) \/ (ext_ltb a b = false /\ ext_le b a).
Proof. apply ext_ltb_cases. Qed.
Lemma ttc_loop_metric ego xe me l : forall best t tw a aw, ttc_loop models pos vx psi outline intersects ego xe me best l = Ok (t, tw, (a, aw)) ->
  ext_le t (fst (fst best)) /\ ext_le (fst (snd best)) a /\
  (forall name x m, In (name, x) l -> name <> ego -> In (name, m) models -> closing pos vx psi xe x -> ext_le t (the_ttc xe me x m) /\ ext_le (drac_of (vx xe) (the_dtc xe me x m)) a) /\
  ((t, tw) = fst best \/ exists name x m, In (name, x) l /\ name <> ego /\ In (name, m) models /\ closing pos vx psi xe x /\ t = the_ttc xe me x m /\ tw = Some name /\ t <> PInf) /\
  ((a, aw) = snd best \/ exists name x m, In (name, x) l /\ name <> ego /\ In (name, m) models /\ closing pos vx psi xe x /\ a = drac_of (vx xe) (the_dtc xe me x m) /\ aw = Some name).
Proof.
  induction l as [|[n x] l IH]; intros best t tw a aw H; cbn [ttc_loop] in H.
  - injection H as H. rewrite H. cbn [fst snd]. split; [apply ext_le_refl|]. split; [apply ext_le_refl|]. split; [intros ? ? ? []|]. split; left; reflexivity.
  - assert (SKIP : ttc_loop models pos vx psi outline intersects ego xe me best l = Ok (t, tw, (a, aw)) -> (n = ego \/ ~ closing pos vx psi xe x) ->
      ext_le t (fst (fst best)) /\ ext_le (fst (snd best)) a /\
      (forall name y m, In (name, y) ((n, x) :: l) -> name <> ego -> In (name, m) models -> closing pos vx psi xe y -> ext_le t (the_ttc xe me y m) /\ ext_le (drac_of (vx xe) (the_dtc xe me y m)) a) /\
      ((t, tw) = fst best \/ exists name y m, In (name, y) ((n, x) :: l) /\ name <> ego /\ In (name, m) models /\ closing pos vx psi xe y /\ t = the_ttc xe me y m /\ tw = Some name /\ t <> PInf) /\
      ((a, aw) = snd best \/ exists name y m, In (name, y) ((n, x) :: l) /\ name <> ego /\ In (name, m) models /\ closing pos vx psi xe y /\ a = drac_of (vx xe) (the_dtc xe me y m) /\ aw = Some name)).
    { intros H' Q. destruct (IH best t tw a aw H') as (A & B & C & D & E). split; [exact A|]. split; [exact B|]. split; [|split].
      - intros name y m [J|J] N M CL; [injection J as -> ->; destruct Q; contradiction|exact (C name y m J N M CL)].
      - destruct D as [D|(name & y & m & J & D)]; [left; exact D|right; exists name, y, m; split; [right; exact J|exact D]].
      - destruct E as [E|(name & y & m & J & E)]; [left; exact E|right; exists name, y, m; split; [right; exact J|exact E]]. }
    destruct (String.eqb_spec n ego) as [->|Ne]; [apply SKIP; [exact H|left; reflexivity]|].
    destruct (agetE String.eqb models n) as [m|] eqn:M; cbn [LaneModel.bind] in H; [|discriminate]. apply agetE_in in M; [|exact NO].
    destruct (skipped pos vx psi xe x) eqn:SK; [apply SKIP; [exact H|right; intro CL; apply skipped_closing in CL; congruence]|]. clear SKIP. apply skipped_closing in SK.
    destruct (ttc_of pos vx psi outline intersects xe x me m) as [[tt dd] d2] eqn:T. assert (Et : the_ttc xe me x m = tt) by (unfold the_ttc; rewrite T; reflexivity). assert (Ed : the_dtc xe me x m = dd) by (unfold the_dtc; rewrite T; reflexivity).
    destruct (IH _ t tw a aw H) as (A & B & C & D & E). cbn [fst snd] in A, B, D, E. set (dr := drac_of (vx xe) dd) in *.
    assert (U : forall m', In (n, m') models -> m' = m). { intros m' M'. pose proof (proj2 (aget_in models n m NO) M) as E1. pose proof (proj2 (aget_in models n m' NO) M') as E2. congruence. }
    assert (Q1 : ext_le t (fst (fst best)) /\ ext_le t tt). { destruct (ext_ltb_cases tt (fst (fst best))) as [(E' & L & _)|(E' & L)]; rewrite E' in A; cbn [fst] in A; split; try exact A; eapply ext_le_trans; eassumption. }
    assert (Q2 : ext_le (fst (snd best)) a /\ ext_le dr a). { destruct (ext_ltb_cases (fst (snd best)) dr) as [(E' & L & _)|(E' & L)]; rewrite E' in B; cbn [fst] in B; split; try exact B; eapply ext_le_trans; eassumption. }
    split; [apply Q1|]. split; [apply Q2|]. split; [|split].
    + intros name y m' [J|J] N M' CL; [injection J as <- <-; rewrite (U m' M'), Et, Ed; split; [apply Q1|apply Q2]|exact (C name y m' J N M' CL)].
    + destruct D as [D|(name & y & m' & J & D)]; [|right; exists name, y, m'; split; [right; exact J|exact D]].
      destruct (ext_ltb tt (fst (fst best))) eqn:L; [right|left; exact D]. injection D as -> ->. exists n, x, m. split; [left; reflexivity|]. split; [exact Ne|]. split; [exact M|]. split; [exact SK|]. split; [symmetry; exact Et|]. split; [reflexivity|]. intros ->. destruct (fst (fst best)); discriminate.
    + destruct E as [E|(name & y & m' & J & E)]; [|right; exists name, y, m'; split; [right; exact J|exact E]].
      destruct (ext_ltb (fst (snd best)) dr) eqn:L; [right|left; exact E]. injection E as -> ->. exists n, x, m. split; [left; reflexivity|]. split; [exact Ne|]. split; [exact M|]. split; [exact SK|]. rewrite Ed. split; reflexivity.
Qed.
Notation rated := (rated logs_at missions models is_fulfilled pos vx psi outline intersects).
Hypothesis TT : forall o1 o2 p1 th1 v1 p2 th2 v2, get_ttc intersects 32 o1 o2 p1 th1 v1 p2 th2 v2 <> None.
Lemma ttc_at_t_spec ego t d dw a aw : (forall t l, logs_at t = Ok l -> dict l) -> get_ttc_drac_at_t logs_at missions models is_fulfilled pos vx psi outline intersects ego t = Ok (d, dw, (a, aw)) ->
  (forall name v ttc dtc, rated ego t name v ttc dtc -> ext_le d ttc /\ ext_le (drac_of v dtc) a) /\
  ((d = PInf /\ dw = None) \/ exists name v ttc dtc, rated ego t name v ttc dtc /\ d = ttc /\ dw = Some name /\ d <> PInf) /\
  ((a = NInf /\ aw = None) \/ exists name v ttc dtc, rated ego t name v ttc dtc /\ a = drac_of v dtc /\ aw = Some name).
Proof.
  intros DL H. unfold get_ttc_drac_at_t in H. destruct (logs_at t) as [l|] eqn:L; cbn [LaneModel.bind] in H; [|discriminate]. destruct (remove_finished_players missions is_fulfilled l) as [l'|] eqn:E; cbn [LaneModel.bind] in H; [|discriminate].
  destruct (remove_spec l l' E) as (RS & RD). pose proof (RD (DL t l L)) as D'.
  assert (AC : forall name x, active logs_at missions is_fulfilled t name x <-> In (name, x) l').
  { intros name x. rewrite RS. unfold active. split; [intros (l0 & g & L0 & I & G & F); rewrite L in L0; injection L0 as <-; split; [exact I|exists g; auto]|intros [I (g & G & F)]; exists l, g; auto]. }
  destruct (aget String.eqb l' ego) as [xe|] eqn:EG.
  - apply aget_in in EG; [|exact D']. destruct (agetE String.eqb models ego) as [me|] eqn:ME; cbn [LaneModel.bind] in H; [|discriminate]. apply agetE_in in ME; [|exact NO].
    destruct (ttc_loop_metric ego xe me l' _ d dw a aw H) as (_ & _ & C & D & F). cbn [fst snd] in D, F.
    assert (AP : forall name v ttc dtc, rated ego t name v ttc dtc <-> v = vx xe /\ exists y m, In (name, y) l' /\ name <> ego /\ In (name, m) models /\ closing pos vx psi xe y /\ ttc = the_ttc xe me y m /\ dtc = the_dtc xe me y m).
    { intros name v ttc dtc. unfold EvalSpec.rated. setoid_rewrite AC. split.
      - intros (xe' & y & me' & m & d2 & I1 & I2 & N & M1 & M2 & CL & Ev & G). assert (xe' = xe) as -> by (apply (aget_in l' ego xe' D') in I1; apply (aget_in l' ego xe D') in EG; congruence).
        assert (me' = me) as -> by (apply (aget_in models ego me' NO) in M1; apply (aget_in models ego me NO) in ME; congruence). split; [exact Ev|]. exists y, m. unfold the_ttc, the_dtc, ttc_of. rewrite G. cbn [fst snd]. auto 10.
      - intros (-> & y & m & I & N & M & CL & -> & ->). pose proof (TT (outline me) (outline m) (pos xe) (psi xe) (vx xe) (pos y) (psi y) (vx y)) as G. unfold the_ttc, the_dtc, ttc_of. destruct (get_ttc _ _ _ _ _ _ _ _ _ _) as [[[a1 a2] a3]|] eqn:G'; [|contradiction G; reflexivity].
        exists xe, y, me, m, a3. cbn [fst snd]. split; [exact EG|]. split; [exact I|]. split; [exact N|]. split; [exact ME|]. split; [exact M|]. split; [exact CL|]. split; [reflexivity|exact G']. }
    split; [|split].
    + intros name v ttc dtc A. apply AP in A as (-> & y & m & I & N & M & CL & -> & ->). exact (C name y m I N M CL).
    + destruct D as [D|(name & y & m & I & N & M & CL & Et & -> & NP)]; [left; injection D as -> ->; auto|]. right. exists name, (vx xe), (the_ttc xe me y m), (the_dtc xe me y m). split; [apply AP; split; [reflexivity|]; exists y, m; auto 10|auto].
    + clear D. destruct F as [D|(name & y & m & I & N & M & CL & -> & ->)]; [left; injection D as -> ->; auto|]. right. exists name, (vx xe), (the_ttc xe me y m), (the_dtc xe me y m). split; [apply AP; split; [reflexivity|]; exists y, m; auto 10|auto].
  - injection H as <- <- <- <-. assert (NA : forall name v ttc dtc, ~ rated ego t name v ttc dtc). { intros name v ttc dtc (xe & _ & _ & _ & _ & A & _). apply AC in A. apply aget_none in EG. apply EG. apply in_map_iff. exists (ego, xe). split; [reflexivity|exact A]. }
    split; [intros name v ttc dtc A; destruct (NA _ _ _ _ A)|]. split; left; auto.
Qed.
Lemma ttc_times_spec ego r ts : (forall t l, logs_at t = Ok l -> dict l) -> StronglySorted Qclt ts -> forall best d dw dt a aw at', ttc_times logs_at missions models is_fulfilled pos vx psi outline intersects ego r best ts = Ok ((d, dw, dt), (a, aw, at')) ->
  ext_le d (fst (fst (fst best))) /\ ext_le (fst (fst (snd best))) a /\
  (forall t name v ttc dtc, In t ts -> in_range r t -> rated ego t name v ttc dtc -> ext_le d ttc /\ ext_le (drac_of v dtc) a) /\
  ((d, dw, dt) = fst best \/ exists t name v ttc dtc, In t ts /\ in_range r t /\ rated ego t name v ttc dtc /\ d = ttc /\ dw = Some name /\ dt = Some t /\ d <> PInf) /\
  ((a, aw, at') = snd best \/ exists t name v ttc dtc, In t ts /\ in_range r t /\ rated ego t name v ttc dtc /\ a = drac_of v dtc /\ aw = Some name /\ at' = Some t).
Proof.
  intros DL. induction ts as [|t ts IH]; intros S best d dw dt a aw at' H; cbn [ttc_times] in H.
  - injection H as H. rewrite H. cbn [fst snd]. split; [apply ext_le_refl|]. split; [apply ext_le_refl|]. split; [intros ? ? ? ? ? []|]. split; left; reflexivity.
  - apply StronglySorted_inv in S as [S F]. destruct (too_early r t) eqn:E1; [|destruct (too_late r t) eqn:E2].
    + destruct (IH S best d dw dt a aw at' H) as (A & B & C & D & E). split; [exact A|]. split; [exact B|]. split; [|split].
      * intros t' name v ttc dtc [<-|I] R; [apply range_cases in R as [R _]; congruence|exact (C t' name v ttc dtc I R)].
      * destruct D as [D|(t' & n & v & x & y & I & D)]; [left; exact D|right; exists t', n, v, x, y; split; [right; exact I|exact D]].
      * clear D. destruct E as [D|(t' & n & v & x & y & I & D)]; [left; exact D|right; exists t', n, v, x, y; split; [right; exact I|exact D]].
    + injection H as H. rewrite H. cbn [fst snd]. split; [apply ext_le_refl|]. split; [apply ext_le_refl|]. split; [|split; left; reflexivity]. intros t' name v ttc dtc I R. exfalso. apply too_late_iff in E2 as (b & Eb & Lb). destruct R as [_ R]. specialize (R b Eb). destruct I as [<-|I].
      * apply (Qclt_not_le _ _ Lb R).
      * rewrite Forall_forall in F. apply (Qclt_not_le _ _ (Qclt_trans _ _ _ Lb (F t' I)) R).
    + assert (RT : in_range r t) by (apply range_cases; split; assumption). destruct (get_ttc_drac_at_t logs_at missions models is_fulfilled pos vx psi outline intersects ego t) as [[[d1 w1] [a1 x1]]|] eqn:AT; cbn [LaneModel.bind] in H; [|discriminate].
      destruct (ttc_at_t_spec ego t d1 w1 a1 x1 DL AT) as (A1 & A2 & A3). destruct (IH S _ d dw dt a aw at' H) as (A & B & C & D & E). cbn [fst snd] in A, B, D, E.
      assert (Q1 : ext_le d (fst (fst (fst best))) /\ ext_le d d1). { destruct (ext_ltb_cases d1 (fst (fst (fst best)))) as [(E' & L & _)|(E' & L)]; rewrite E' in A; cbn [fst] in A; split; try exact A; eapply ext_le_trans; eassumption. }
      assert (Q2 : ext_le (fst (fst (snd best))) a /\ ext_le a1 a). { destruct (ext_ltb_cases (fst (fst (snd best))) a1) as [(E' & L & _)|(E' & L)]; rewrite E' in B; cbn [fst] in B; split; try exact B; eapply ext_le_trans; eassumption. }
      split; [apply Q1|]. split; [apply Q2|]. split; [|split].
      * intros t' name v ttc dtc [<-|I] R RA; [destruct (A1 name v ttc dtc RA) as [X Y]; split; eapply ext_le_trans; [apply Q1|exact X|exact Y|apply Q2]|exact (C t' name v ttc dtc I R RA)].
      * destruct D as [D|(t' & n & v & x & y & I & D)]; [|right; exists t', n, v, x, y; split; [right; exact I|exact D]].
        destruct (ext_ltb d1 (fst (fst (fst best)))) eqn:L; [|left; exact D]. injection D as -> -> ->. destruct A2 as [(-> & _)|(n & v & x & y & RA & -> & -> & NP)]; [destruct (fst (fst (fst best))); discriminate|]. right. exists t, n, v, x, y. split; [left; reflexivity|]. auto 10.
      * clear D. destruct E as [D|(t' & n & v & x & y & I & D)]; [|right; exists t', n, v, x, y; split; [right; exact I|exact D]].
        destruct (ext_ltb (fst (fst (snd best))) a1) eqn:L; [|left; exact D]. injection D as -> -> ->. destruct A3 as [(-> & _)|(n & v & x & y & RA & -> & ->)]; [destruct (fst (fst (snd best))); discriminate|]. right. exists t, n, v, x, y. split; [left; reflexivity|]. auto 10.
Qed.
End Metrics.
