(** Properties of the evaluation metrics. *)
From Coq Require Import String Reals Lra Psatz List Bool ZArith Lia Arith QArith Qcanon Sorted.
From Verif Require Import Base Num SeqModel SeqSpec SeqProofs SeqProofs2 SeqMain R2 GeoModel GeoSpec GeoProofs LaneModel LaneSpec LaneProofs LaneMain EvalModel EvalSpec EvalProofs EvalFreq LaneStraight.
Import ListNotations.
Open Scope R_scope.
(* BODY *)

(** ** C62 *)

(** The maximum jerk bounds the slope of the commands over every sampling interval
    that ends in the window, and is the slope of one of them (or zero). *)
Theorem C62_max_jerk : forall U (acc : U -> Qc) (s : SeqModel.seq U) r, obtainable s -> typed s = true ->
  exists m, get_max_jerk acc s r = Ok m /\
    (forall t0 v0 t1 v1, adjacent s t0 v0 t1 v1 -> in_range r t1 -> (qabs ((acc v1 - acc v0) / (t1 - t0)) <= m)%Qc) /\
    (m = 0%Qc \/ exists t0 v0 t1 v1, adjacent s t0 v0 t1 v1 /\ in_range r t1 /\ m = qabs ((acc v1 - acc v0) / (t1 - t0))%Qc).
Proof.
  intros U acc s r O T. pose proof (obtainable_WF U s O) as W. exists (jerk_loop acc r 0%Qc (adj (iter s))). unfold get_max_jerk. rewrite iterate_typed by exact T. split; [reflexivity|].
  destruct (jerk_spec acc r (adj (iter s)) (adj_t1_sorted s W) 0%Qc) as (_ & B & C). split.
  - intros t0 v0 t1 v1 A R. exact (B _ (adjacent_in_adj s _ _ _ _ A) R).
  - destruct C as [C|(it & I & R & C)]; [left; exact C|right]. apply adj_in_adjacent in I as (A & _). exists (it_t0 it), (it_v0 it), (it_t1 it), (it_v1 it). auto.
Qed.

(** The result for an empty log, a single command or a window without commands. *)
Theorem C62_no_interval : forall U (acc : U -> Qc) (s : SeqModel.seq U) r, obtainable s -> typed s = true ->
  (forall t, In t (tl (tss s)) -> ~ in_range r t) -> get_max_jerk acc s r = Ok 0%Qc.
Proof.
  intros U acc s r O T H. destruct (C62_max_jerk_pf U acc s r O T) as (m & E & _ & [->|(t0 & v0 & t1 & v1 & (i & A0 & A1) & R & _)]); [exact E|exfalso].
  apply (H t1); [|exact R]. rewrite <- (iter_fst s) by (apply obtainable_WF; exact O). destruct (iter s) as [|x l]; [destruct i; discriminate|]. cbn [nth_error] in A1. cbn [map tl]. apply (in_map fst _ (t1, v1)). exact (nth_error_In _ _ A1).
Qed.

Example C62_ex : let s := mkSeq [qz 0; qz 1; qz 3; qz 4] [qz 0; qz 2; qz (-4); qz 50] true in
  get_max_jerk (fun x => x) s (None, Some (qz 3)) = Ok (qz 3) /\ get_max_jerk (fun x => x) s (Some (qz 1), Some (qz 2)) = Ok (qz 2) /\ get_max_jerk (fun x => x) s (None, None) = Ok (qz 54).
Proof. vm_compute. auto. Qed.

(** ** C63 *)

(** The distance travelled is the length of the line through the logged positions. *)
Theorem C63_distance : forall X (pos : X -> vec) (s : SeqModel.seq X), obtainable s -> typed s = true ->
  distance_traveled pos s = Ok (path_length (map pos (vals s))).
Proof. intros X pos s O T. apply distance_path; [apply obtainable_WF; exact O|exact T]. Qed.

(** It is at least the distance between the first and the last position. *)
Theorem C63_displacement : forall X (pos : X -> vec) (s : SeqModel.seq X) d a b, obtainable s -> typed s = true ->
  distance_traveled pos s = Ok d -> nth_error (vals s) 0 = Some a -> last_of (vals s) = Some b -> 0 <= d /\ vdist (pos a) (pos b) <= d.
Proof.
  intros X pos s d a b O T E A B. rewrite C63_distance_pf in E by assumption. injection E as <-. split; [apply path_nonneg|].
  destruct (vals s) as [|x l]; [discriminate|]. cbn in A. injection A as ->. unfold last_of in B. destruct l as [|y l] using rev_ind.
  - cbn in B. injection B as <-. rewrite vdist_refl. apply path_nonneg.
  - clear IHl. cbn [length] in B. rewrite app_length in B. cbn [length] in B. replace (S (length l + 1) - 1)%nat with (S (length l)) in B by lia. cbn [nth_error] in B. rewrite nth_error_app2, Nat.sub_diag in B by lia. cbn in B. injection B as ->.
    cbn [map]. rewrite map_app. apply path_displacement.
Qed.

(** A player that stays where it is travels no distance. *)
Theorem C63_rest : forall X (pos : X -> vec) (s : SeqModel.seq X) p, obtainable s -> typed s = true ->
  (forall x, In x (vals s) -> pos x = p) -> distance_traveled pos s = Ok 0.
Proof.
  intros X pos s p O T H. rewrite C63_distance_pf by assumption. f_equal. apply (path_const p). apply Forall_forall. intros q I. apply in_map_iff in I as (x & <- & I). symmetry. apply H. exact I.
Qed.

(** Splitting the log at one of its samples splits the distance. *)
Theorem C63_split : forall X (pos : X -> vec) (s : SeqModel.seq X) a t b, obtainable s -> typed s = true ->
  get_start s = Ok a -> get_end s = Ok b -> In t (tss s) ->
  exists s1 s2 d1 d2, get_subsequence s a t = Ok s1 /\ get_subsequence s t b = Ok s2 /\
    distance_traveled pos s1 = Ok d1 /\ distance_traveled pos s2 = Ok d2 /\ distance_traveled pos s = Ok (d1 + d2).
Proof.
  intros X pos s a t b O T A B I. pose proof (obtainable_WF X s O) as W. apply get_start_nth in A. apply get_end_iff in B. apply In_nth_error in I as (k & K).
  assert (At : (a <= t)%Qc) by (apply (Inc_le_nth (tss s) 0 k a t); [apply W|exact A|exact K|lia]).
  assert (LK : (k < length (tss s))%nat) by (apply nth_error_Some; congruence).
  assert (tb : (t <= b)%Qc) by (apply (Inc_le_nth (tss s) k (length (tss s) - 1) t b); [apply W|exact K|exact B|lia]).
  destruct (C05_subsequence_is_closed_window_pf X s a t O) as (H1 & _). destruct (C05_subsequence_is_closed_window_pf X s t b O) as (H2 & _).
  destruct (H1 At) as (s1 & E1 & F1 & _). destruct (H2 tb) as (s2 & E2 & F2 & _).
  assert (TY : forall x y s', get_subsequence s x y = Ok s' -> typed s' = true). { intros x y s' E. unfold get_subsequence in E. destruct (qleb x y); [|discriminate]. destruct (bisect_left _ _); [|discriminate]. destruct (bisect_right _ _); [|discriminate]. apply new_seq_inv in E. destruct E as (_ & _ & ->). reflexivity. }
  pose proof (ob_sub X s s1 a t O E1) as O1. pose proof (ob_sub X s s2 t b O E2) as O2.
  exists s1, s2, (path_length (map pos (vals s1))), (path_length (map pos (vals s2))).
  split; [exact E1|]. split; [exact E2|]. split; [apply C63_distance_pf; [exact O1|exact (TY _ _ _ E1)]|]. split; [apply C63_distance_pf; [exact O2|exact (TY _ _ _ E2)]|].
  rewrite C63_distance_pf by assumption. f_equal. rewrite <- (iter_snd s W), <- (iter_snd s1 (obtainable_WF X s1 O1)), <- (iter_snd s2 (obtainable_WF X s2 O2)), F1, F2.
  assert (LI : length (iter s) = length (tss s)) by (apply iter_length; exact W).
  assert (NK : nth_error (map fst (iter s)) k = Some t) by (rewrite iter_fst by exact W; exact K). rewrite nth_error_map in NK. destruct (nth_error (iter s) k) as [[t' v]|] eqn:Ek; [|discriminate]. cbn in NK. injection NK as ->.
  destruct (nth_error_split (iter s) k Ek) as (l & m & EL & Ll).
  assert (INC : Inc (map fst l ++ t :: map fst m)). { replace (map fst l ++ t :: map fst m) with (map fst (iter s)) by (rewrite EL, map_app; reflexivity). rewrite iter_fst by exact W. apply W. }
  assert (LO : forall p, In p l -> (fst p < t)%Qc). { intros p J. apply Inc_app_inv in INC as (_ & _ & G). apply G; [apply in_map; exact J|left; reflexivity]. }
  assert (HI : forall p, In p m -> (t < fst p)%Qc). { intros p J. apply Inc_app_inv in INC as (_ & G & _). apply StronglySorted_inv in G as [_ G]. rewrite Forall_forall in G. apply G. apply in_map. exact J. }
  assert (AL : forall p, In p (iter s) -> (a <= fst p)%Qc /\ (fst p <= b)%Qc).
  { intros p J. assert (J' : In (fst p) (tss s)) by (rewrite <- (iter_fst s W); apply in_map; exact J). apply In_nth_error in J' as (i & J'). assert (i < length (tss s))%nat by (apply nth_error_Some; congruence).
    split; [apply (Inc_le_nth (tss s) 0 i a (fst p)); [apply W|exact A|exact J'|lia]|apply (Inc_le_nth (tss s) i (length (tss s) - 1) (fst p) b); [apply W|exact J'|exact B|lia]]. }
  assert (FA : forall (f : Qc * X -> bool) l, (forall p, In p l -> f p = true) -> filter f l = l) by (clear; intros f l H; induction l as [|x l IH]; [reflexivity|]; cbn; rewrite H by (left; reflexivity); f_equal; apply IH; intros p I; apply H; right; exact I).
  assert (FN : forall (f : Qc * X -> bool) l, (forall p, In p l -> f p = false) -> filter f l = []) by (clear; intros f l H; induction l as [|x l IH]; [reflexivity|]; cbn; rewrite H by (left; reflexivity); apply IH; intros p I; apply H; right; exact I).
  assert (X1 : filter (fun p => qleb a (fst p) && qleb (fst p) t) (iter s) = l ++ [(t, v)]).
  { rewrite EL, filter_app. f_equal; [apply FA; intros p J|].
    - apply andb_true_iff. split; apply qleb_le; [apply AL; rewrite EL; apply in_or_app; left; exact J|apply Qclt_le_weak, LO, J].
    - cbn [filter fst]. rewrite (proj2 (qleb_le a t)) by exact At. rewrite (proj2 (qleb_le t t)) by apply Qcle_refl. cbn [andb]. f_equal. apply FN. intros p J. apply andb_false_iff. right. destruct (qleb (fst p) t) eqn:Q; [|reflexivity]. apply qleb_le in Q. exfalso. exact (Qclt_not_le _ _ (HI p J) Q). }
  assert (X2 : filter (fun p => qleb t (fst p) && qleb (fst p) b) (iter s) = (t, v) :: m).
  { rewrite EL, filter_app. rewrite (FN _ l); [cbn [app filter fst]|].
    - rewrite (proj2 (qleb_le t t)) by apply Qcle_refl. rewrite (proj2 (qleb_le t b)) by exact tb. cbn [andb]. f_equal. apply FA. intros p J. apply andb_true_iff. split; apply qleb_le; [apply Qclt_le_weak, HI, J|apply AL; rewrite EL; apply in_or_app; right; right; exact J].
    - intros p J. apply andb_false_iff. left. destruct (qleb t (fst p)) eqn:Q; [|reflexivity]. apply qleb_le in Q. exfalso. exact (Qclt_not_le _ _ (LO p J) Q). }
  rewrite X1, X2, EL. rewrite !map_app. cbn [map snd]. apply path_split.
Qed.

Example C63_ex : let s := mkSeq [qz 0; qz 1; qz 3] [(0, 0); (3, 4); (3, 0)] true in
  distance_traveled (fun x : vec => x) s = Ok 9 /\ vdist (0, 0) (3, 0) = 3.
Proof.
  assert (V : forall a b c, 0 <= c -> (fst a - fst b) * (fst a - fst b) + (snd a - snd b) * (snd a - snd b) = c * c -> vdist a b = c) by (intros a b c C E; unfold vdist, vnorm, vdot, vsub; cbn [fst snd]; rewrite E; apply sqrt_square; exact C).
  cbv zeta. split; [|apply V; cbn; lra]. rewrite C63_distance; [|apply (ob_new _ true [qz 0; qz 1; qz 3] [(0, 0); (3, 4); (3, 0)]); reflexivity|reflexivity]. cbn [map vals path_length]. rewrite (V (0, 0) (3, 4) 5), (V (3, 4) (3, 0) 4) by (cbn; lra). f_equal. lra.
Qed.

(** ** C64 *)

(** For a vehicle alongside the goal lane the answer is: the goal is fulfilled or the
    vehicle is within the tolerances. *)
Theorem C64_alongside_goal_lane : forall n on fuel goal lp ff pos_tol heading_tol, on goal = Ok lp -> lp_along_inside lp = true -> (1 <= fuel)%nat ->
  desired_lane_reached n on fuel goal (Ok ff) pos_tol heading_tol =
    Some (Ok (ff || (lp_lateral_inside lp && ltb (lp_distance_from_center lp) pos_tol && ltb (Rabs (lp_relative_heading lp)) heading_tol))).
Proof.
  intros n on fuel goal lp ff pt ht P I F. destruct fuel as [|fuel]; [lia|]. unfold desired_lane_reached. rewrite P. cbn [walk]. rewrite I. destruct ff; reflexivity.
Qed.

(** The next lane of a lane that has none is None; of others it is the lane of the first
    successor or predecessor in the network. *)
Theorem C64_next_lane : forall n d c, get_lanelet_from_dglanelet n d = Ok c ->
  (cr_succ c = [] -> get_successor_dglane n d = Ok None) /\ (cr_pred c = [] -> get_predecessor_dglane n d = Ok None) /\
  (forall i r c', cr_succ c = i :: r -> find_by_id n i = Some c' -> get_successor_dglane n d = Ok (Some (cr_dg c'))) /\
  (forall i r c', cr_pred c = i :: r -> find_by_id n i = Some c' -> get_predecessor_dglane n d = Ok (Some (cr_dg c'))).
Proof.
  intros n d c E. unfold get_successor_dglane, get_predecessor_dglane, get_next_dglane. rewrite E. cbn [bind].
  split; [intros ->; reflexivity|]. split; [intros ->; reflexivity|]. split; intros i r c' -> ->; reflexivity.
Qed.

(** At the ends of the network the search stops, and the answer is given for the lane it
    got to. *)
Theorem C64_ends : forall n on fuel goal c lp ff pos_tol heading_tol, on goal = Ok lp -> get_lanelet_from_dglanelet n goal = Ok c ->
  (lp_along_after lp = true /\ cr_succ c = []) \/ (lp_along_after lp = false /\ lp_along_before lp = true /\ cr_pred c = []) -> (1 <= fuel)%nat ->
  desired_lane_reached n on fuel goal (Ok ff) pos_tol heading_tol =
    Some (Ok (ff || (lp_lateral_inside lp && ltb (lp_distance_from_center lp) pos_tol && ltb (Rabs (lp_relative_heading lp)) heading_tol))).
Proof.
  intros n on fuel goal c lp ff pt ht P E H F. destruct fuel as [|fuel]; [lia|]. destruct (C64_next_lane n goal c E) as (S1 & P1 & _).
  unfold desired_lane_reached. rewrite P. cbn [walk]. destruct (lp_along_inside lp); [destruct ff; reflexivity|].
  unfold walk_body. destruct (_ || _)%bool; [destruct ff; reflexivity|].
  destruct H as [[A N]|(A & B & N)]; rewrite A.
  - rewrite (S1 N). cbn [bind]. destruct ff; reflexivity.
  - unfold walk_before. rewrite B, (P1 N). cbn [bind]. destruct ff; reflexivity.
Qed.

(** A positive answer means that the goal is fulfilled or that the vehicle is within
    the tolerances of a lane linked to the goal lane. *)
Theorem C64_positive_answer : forall n on fuel goal ff pos_tol heading_tol, desired_lane_reached n on fuel goal ff pos_tol heading_tol = Some (Ok true) ->
  ff = Ok true \/ exists d lp, reachable n goal d /\ on d = Ok lp /\ lp_lateral_inside lp = true /\ lp_distance_from_center lp < pos_tol /\ Rabs (lp_relative_heading lp) < heading_tol.
Proof.
  intros n on fuel goal ff pt ht H. unfold desired_lane_reached in H. destruct (on goal) as [lp0|] eqn:P; [|discriminate]. destruct (walk n on fuel goal lp0) as [[lp|]|] eqn:W; try discriminate.
  destruct (walk_some n on fuel goal lp0 lp P W) as (d & R & Pd). destruct ff as [[|]|]; [left; reflexivity| |discriminate]. right. injection H as H. apply andb_true_iff in H as [H H3]. apply andb_true_iff in H as [H1 H2].
  exists d, lp. split; [exact R|]. split; [exact Pd|]. split; [exact H1|]. split; apply ltb_iff; assumption.
Qed.

(** The search either returns within as many rounds as the network has lanes, plus
    one, or never. *)
Theorem C64_returns_soon_or_never : forall n on goal ff pos_tol heading_tol,
  desired_lane_reached n on (length (n_lanes n) + 1) goal ff pos_tol heading_tol = None ->
  forall fuel, desired_lane_reached n on fuel goal ff pos_tol heading_tol = None.
Proof.
  intros n on goal ff pt ht H fuel. unfold desired_lane_reached in *. destruct (on goal) as [lp|] eqn:P; [|discriminate].
  assert (W : forall k, walk n on k goal lp = None).
  { intro k. apply (walk_none n on k goal lp P). apply nexts_bounded. apply (walk_none n on _ goal lp P). replace (S (length (n_lanes n))) with (length (n_lanes n) + 1)%nat by lia.
    destruct (walk n on (length (n_lanes n) + 1) goal lp) as [[x|e]|]; [|discriminate|reflexivity]. destruct ff as [[|]|]; discriminate. }
  rewrite W. reflexivity.
Qed.

(** The flags of a pose on a lane, as set by lane_pose. *)
Definition flags (d : lanelet) (lp : lane_pose_t) : Prop :=
  lp_along_inside lp = leb 0 (lp_along_lane lp) && ltb (lp_along_lane lp) (get_lane_length d) /\ lp_along_before lp = ltb (lp_along_lane lp) 0 /\ lp_along_after lp = ltb (get_lane_length d) (lp_along_lane lp).

Lemma flags_ok m d q tol lp : lane_pose_from_SE2_generic m d q tol = Ok lp -> flags d lp.
Proof.
  unfold lane_pose_from_SE2_generic. destruct (find_along_lane_closest_point _ _ _ _ _) as [bq|]; cbn [bind]; [|discriminate]. destruct (along_lane_from_beta _ _) as [x|]; cbn [bind]; [|discriminate]. destruct (relative_pose _ _) as [rel|]; cbn [bind]; [|discriminate].
  intro H. apply lane_pose_inv in H as (b & c & r & _ & _ & _ & ->). split; [reflexivity|]. split; reflexivity.
Qed.

(** It returns if the network has no loops and no gaps: a position beyond the end of a
    lane is not before the start of its successor, and the other way round. *)
Theorem C64_returns_partial : forall n m q tol goal ff pos_tol heading_tol, let on := fun d => lane_pose_from_SE2_generic m d q tol in
  (exists rank : lanelet -> nat, forall d d', get_successor_dglane n d = Ok (Some d') -> (rank d' < rank d)%nat) ->
  (exists rank : lanelet -> nat, forall d d', get_predecessor_dglane n d = Ok (Some d') -> (rank d' < rank d)%nat) ->
  (forall d d' lp lp', get_successor_dglane n d = Ok (Some d') -> on d = Ok lp -> on d' = Ok lp' -> lp_along_after lp = true -> lp_along_before lp' = false) ->
  (forall d d' lp lp', get_predecessor_dglane n d = Ok (Some d') -> on d = Ok lp -> on d' = Ok lp' -> lp_along_before lp = true -> lp_along_after lp' = false) ->
  exists fuel, desired_lane_reached n on fuel goal ff pos_tol heading_tol <> None.
Proof.
  intros n m q tol goal ff pt ht on [r1 R1] [r2 R2] G1 G2. unfold desired_lane_reached. destruct (on goal) as [lp|] eqn:P; [|exists 0%nat; discriminate].
  assert (FL : forall d lp, on d = Ok lp -> flags d lp) by (intros; eapply flags_ok; eassumption).
  assert (B : forall k d lp, on d = Ok lp -> lp_along_after lp = false -> (r2 d < k)%nat -> walk n on k d lp <> None).
  { induction k as [|k IH]; intros d lp1 P1 A L; [lia|]. cbn [walk]. destruct (lp_along_inside lp1) eqn:I; [discriminate|]. unfold walk_body. rewrite A. destruct (_ || _) eqn:C; [discriminate|]. unfold walk_before. destruct (lp_along_before lp1) eqn:BF.
    - destruct (get_predecessor_dglane n d) as [[d'|]|] eqn:E; cbn [bind]; try discriminate. destruct (on d') as [lp'|] eqn:P'; cbn [bind]; [|discriminate]. apply IH; [exact P'|exact (G2 d d' lp1 lp' E P1 P' BF)|specialize (R2 _ _ E); lia].
    - exfalso. destruct (FL d lp1 P1) as (F1 & F2 & F3). rewrite I in F1. rewrite BF in F2. rewrite A in F3. symmetry in F1, F2, F3. apply ltb_false in F2. apply ltb_false in F3. apply andb_false_iff in F1 as [F1|F1]; [apply leb_false in F1; lra|apply ltb_false in F1].
      apply orb_false_iff in C as [_ C]. apply ltb_false in C. assert (E : lp_along_lane lp1 = get_lane_length d) by lra. rewrite E in C. replace (get_lane_length d - get_lane_length d) with 0 in C by ring. rewrite Rabs_R0 in C. lra. }
  assert (A : forall k d lp, on d = Ok lp -> lp_along_before lp = false -> (r1 d < k)%nat -> walk n on k d lp <> None).
  { induction k as [|k IH]; intros d lp1 P1 A L; [lia|]. cbn [walk]. destruct (lp_along_inside lp1) eqn:I; [discriminate|]. unfold walk_body. destruct (_ || _) eqn:C; [discriminate|]. destruct (lp_along_after lp1) eqn:BF.
    - destruct (get_successor_dglane n d) as [[d'|]|] eqn:E; cbn [bind]; try discriminate. destruct (on d') as [lp'|] eqn:P'; cbn [bind]; [|discriminate]. unfold walk_before. rewrite (G1 d d' lp1 lp' E P1 P' BF). apply IH; [exact P'|exact (G1 d d' lp1 lp' E P1 P' BF)|specialize (R1 _ _ E); lia].
    - exfalso. destruct (FL d lp1 P1) as (F1 & F2 & F3). rewrite I in F1. rewrite A in F2. rewrite BF in F3. symmetry in F1, F2, F3. apply ltb_false in F2. apply ltb_false in F3. apply andb_false_iff in F1 as [F1|F1]; [apply leb_false in F1; lra|apply ltb_false in F1].
      apply orb_false_iff in C as [_ C]. apply ltb_false in C. assert (E : lp_along_lane lp1 = get_lane_length d) by lra. rewrite E in C. replace (get_lane_length d - get_lane_length d) with 0 in C by ring. rewrite Rabs_R0 in C. lra. }
  assert (X : exists k, walk n on k goal lp <> None).
  { destruct (lp_along_before lp) eqn:BF; [|exists (S (r1 goal)); apply A; [exact P|exact BF|lia]]. exists (S (r2 goal)). apply B; [exact P| |lia]. destruct (FL goal lp P) as (F1 & F2 & F3). rewrite BF in F2. symmetry in F2. apply ltb_iff in F2. rewrite F3. apply ltb_false. pose proof (rsum_nonneg _ (lengths_nonneg goal)). unfold get_lane_length. lra. }
  destruct X as (k & X). exists k. destruct (walk n on k goal lp) as [[x|e]|]; [destruct ff as [[|]|]; discriminate|discriminate|contradiction].
Qed.

(** Two lanes that meet at a right turn, the second the successor of the first, and a
    vehicle outside the corner. *)
Definition turn_a : lanelet := straight (0, 0) 0 10 2.

Definition turn_b : lanelet := straight (10, 0) (- (PI / 2)) 10 2.

Definition turn_net : network := mkNet [mkCR 1 [2%nat] [] turn_a; mkCR 2 [] [1%nat] turn_b] (fun p => if ltb (snd p) (-5) then [2%nat] else [1%nat; 2%nat]).

Lemma turn_length : get_lane_length turn_a = 10.
Proof. apply st_length. lra. Qed.

Lemma turn_ends : last turn_a (mkCP (mkSE2T (0, 0) 0) 0) = mkCP (mkSE2T (10, 0) 0) 2 /\ cp_q (nth 1 turn_b (mkCP (mkSE2T (0, 0) 0) 0)) = mkSE2T (10, -10) (- (PI / 2)).
Proof.
  unfold turn_a, turn_b, straight. cbn [last nth cp_q]. unfold vadd, vscale. cbn [fst snd]. rewrite cos_0, sin_0, cos_neg, sin_neg, cos_PI2, sin_PI2. split; repeat f_equal; ring.
Qed.

Lemma turn_next : get_successor_dglane turn_net turn_a = Ok (Some turn_b) /\ get_predecessor_dglane turn_net turn_b = Ok (Some turn_a).
Proof.
  assert (A : get_lanelet_from_dglanelet turn_net turn_a = Ok (mkCR 1 [2%nat] [] turn_a)).
  { unfold get_lanelet_from_dglanelet, item, turn_a at 1, straight. cbn [nth_error bind n_at turn_net cp_q t_p]. unfold vadd, vscale. cbn [fst snd]. rewrite sin_0. rewrite (proj2 (ltb_false _ _)) by lra. reflexivity. }
  assert (B : get_lanelet_from_dglanelet turn_net turn_b = Ok (mkCR 2 [] [1%nat] turn_b)).
  { unfold get_lanelet_from_dglanelet, item, turn_b at 1, straight. cbn [nth_error bind n_at turn_net cp_q t_p]. unfold vadd, vscale. cbn [fst snd]. rewrite sin_neg, sin_PI2. rewrite (proj2 (ltb_iff _ _)) by lra. reflexivity. }
  unfold get_successor_dglane, get_predecessor_dglane, get_next_dglane. rewrite A, B. split; reflexivity.
Qed.

Lemma turn_pose m tol th : exact_minimizer m -> exists lpa lpb, lane_pose_from_SE2_generic m turn_a (SE2_from_translation_angle (11, 1) th) tol = Ok lpa /\ lane_pose_from_SE2_generic m turn_b (SE2_from_translation_angle (11, 1) th) tol = Ok lpb /\
  lp_along_lane lpa = 20 /\ lp_along_inside lpa = false /\ lp_along_after lpa = true /\ lp_along_before lpb = true.
Proof.
  intro M. destruct (st_lane_pose (0, 0) 0 10 2 ltac:(lra) (11, 1) th m M tol) as (lpa & Ea & A1 & _ & _ & _ & A2 & _ & A3 & _). destruct (st_lane_pose (10, 0) (- (PI / 2)) 10 2 ltac:(lra) (11, 1) th m M tol) as (lpb & Eb & B1 & _ & _ & _ & _ & B2 & _).
  assert (SA : salong 10 (vdot (vsub (11, 1) (0, 0)) (cos 0, sin 0)) = 20). { unfold vdot, vsub. cbn [fst snd]. rewrite cos_0, sin_0. unfold salong. destruct (Rlt_dec _ 0); [lra|]. destruct (Rlt_dec _ 10); lra. }
  assert (SB : salong 10 (vdot (vsub (11, 1) (10, 0)) (cos (- (PI / 2)), sin (- (PI / 2)))) = -10). { unfold vdot, vsub. cbn [fst snd]. rewrite cos_neg, sin_neg, cos_PI2, sin_PI2. unfold salong. destruct (Rlt_dec _ 0); lra. }
  rewrite SA in *. rewrite SB in *. exists lpa, lpb. split; [exact Ea|]. split; [exact Eb|]. split; [exact A1|]. split; [rewrite A2; apply andb_false_iff; right; apply ltb_false; lra|]. split; [rewrite A3; apply ltb_iff; lra|rewrite B2; apply ltb_iff; lra].
Qed.

(** The search need not return: two connected lanes and a position outside the corner,
    for every exact minimiser, every tolerance and heading. *)
Theorem C64_returns_refuted : exists n goal succ p, get_successor_dglane n goal = Ok (Some succ) /\ get_predecessor_dglane n succ = Ok (Some goal) /\
  t_p (cp_q (last goal (mkCP t_identity 0))) = t_p (cp_q (hd (mkCP t_identity 0) succ)) /\
  forall m, exact_minimizer m -> forall tol th ff pos_tol heading_tol fuel,
  desired_lane_reached n (fun d => lane_pose_from_SE2Transform m d (mkSE2T p th) tol) fuel goal ff pos_tol heading_tol = None.
Proof.
  exists turn_net, turn_a, turn_b, (11, 1). destruct turn_next as [N1 N2]. split; [exact N1|]. split; [exact N2|]. split.
  - unfold turn_a, turn_b, straight. cbn [last hd cp_q t_p]. unfold vadd, vscale. cbn [fst snd]. rewrite cos_0, sin_0. f_equal; ring.
  - intros m M tol th ff pt ht fuel. destruct (turn_pose m tol th M) as (lpa & lpb & Ea & Eb & AL & AI & AA & BB). set (on := fun d => _). unfold desired_lane_reached.
    assert (Pa : on turn_a = Ok lpa) by exact Ea. assert (Pb : on turn_b = Ok lpb) by exact Eb. rewrite Pa.
    assert (NX : next turn_net on turn_a = Some turn_a).
    { unfold next. rewrite Pa, AI. unfold walk_body. rewrite AL. rewrite turn_length. rewrite (proj2 (ltb_false (Rabs 20) 1)) by (rewrite Rabs_right; lra). rewrite (proj2 (ltb_false (Rabs (20 - 10)) 1)) by (rewrite Rabs_right; lra). cbn [orb].
      rewrite AA, N1. cbn [bind]. rewrite Pb. cbn [bind]. unfold walk_before. rewrite BB, N2. cbn [bind]. rewrite Pa. reflexivity. }
    rewrite (proj2 (walk_none turn_net on fuel turn_a lpa Pa)); [reflexivity|]. apply (nexts_period turn_net on turn_a 1); [lia|]. cbn [nexts]. rewrite NX. reflexivity.
Qed.

(** A lane and its predecessor. *)
Definition pre_z : lanelet := straight (-10, 0) 0 10 2.

Definition pre_net : network := mkNet [mkCR 1 [2%nat] [] pre_z; mkCR 2 [] [1%nat] turn_a] (fun p => if leb (fst p) 0 then [1%nat] else [2%nat]).

(** A vehicle that is still before the goal lane, on its predecessor, counts as having
    reached the goal lane; the documentation promises the goal lane or a successor. *)
Theorem C64_predecessor_refuted : exists n goal p, forall m, exact_minimizer m -> forall tol,
  (exists lp, lane_pose_from_SE2Transform m goal (mkSE2T p 0) tol = Ok lp /\ lp_along_before lp = true /\ lp_along_lane lp = -50) /\
  desired_lane_reached n (fun d => lane_pose_from_SE2Transform m d (mkSE2T p 0) tol) 3 goal (Ok false) (8 / 10) (8 / 100) = Some (Ok true).
Proof.
  exists pre_net, turn_a, (-5, 0). intros m M tol. set (on := fun d => lane_pose_from_SE2Transform m d (mkSE2T (-5, 0) 0) tol).
  destruct (st_lane_pose (0, 0) 0 10 2 ltac:(lra) (-5, 0) 0 m M tol) as (lpa & Ea & A1 & _ & _ & _ & A2 & A3 & A4 & _). destruct (st_lane_pose (-10, 0) 0 10 2 ltac:(lra) (-5, 0) 0 m M tol) as (lpz & Ez & _ & _ & Z1 & Z2 & Z3 & _ & _ & Z4).
  assert (SA : salong 10 (vdot (vsub (-5, 0) (0, 0)) (cos 0, sin 0)) = -50). { unfold vdot, vsub. cbn [fst snd]. rewrite cos_0, sin_0. unfold salong. destruct (Rlt_dec _ 0); lra. }
  assert (SZ : salong 10 (vdot (vsub (-5, 0) (-10, 0)) (cos 0, sin 0)) = 5). { unfold vdot, vsub. cbn [fst snd]. rewrite cos_0, sin_0. unfold salong. destruct (Rlt_dec _ 0); [lra|]. destruct (Rlt_dec _ 10); lra. }
  assert (LZ : vcross (cos 0, sin 0) (vsub (-5, 0) (-10, 0)) = 0). { unfold vcross, vsub. cbn [fst snd]. rewrite cos_0, sin_0. ring. }
  rewrite SA in *. rewrite SZ in *. rewrite LZ in *.
  assert (Pa : on turn_a = Ok lpa) by exact Ea. assert (Pz : on pre_z = Ok lpz) by exact Ez.
  assert (BF : lp_along_before lpa = true) by (rewrite A3; apply ltb_iff; lra).
  split; [exists lpa; split; [exact Pa|]; split; [exact BF|exact A1]|].
  assert (N : get_predecessor_dglane pre_net turn_a = Ok (Some pre_z)).
  { unfold get_predecessor_dglane, get_next_dglane, get_lanelet_from_dglanelet, item, turn_a at 1, straight. cbn [nth_error bind n_at pre_net cp_q t_p]. unfold vadd, vscale. cbn [fst snd]. rewrite cos_0. rewrite (proj2 (leb_false _ _)) by lra. reflexivity. }
  unfold desired_lane_reached. rewrite Pa. cbn [walk]. rewrite A2. rewrite (proj2 (leb_false 0 (-50))) by lra. cbn [andb]. unfold walk_body at 1. rewrite A1. rewrite turn_length.
  rewrite (proj2 (ltb_false (Rabs (-50)) 1)) by (rewrite Rabs_left; lra). rewrite (proj2 (ltb_false (Rabs (-50 - 10)) 1)) by (rewrite Rabs_left; lra). cbn [orb]. rewrite A4. rewrite (proj2 (ltb_false 10 (-50))) by lra. unfold walk_before. rewrite BF, N. cbn [bind]. rewrite Pz. cbn [bind].
  rewrite Z3. rewrite (proj2 (leb_iff 0 5)) by lra. rewrite (proj2 (ltb_iff 5 10)) by lra. cbn [andb]. rewrite Z2. rewrite (proj2 (leb_iff (- (2)) 0)) by lra. rewrite (proj2 (leb_iff 0 2)) by lra. cbn [andb]. rewrite Z1, Rabs_R0. rewrite (proj2 (ltb_iff 0 (8 / 10))) by lra. cbn [andb].
  rewrite Z4. unfold angle_from_SE2. cbn [SE2_from_translation_angle m00 m10]. replace (0 - 0) with 0 by ring. rewrite cos_0, sin_0.
  assert (A0 : atan2 0 1 = 0). { unfold atan2. destruct (Rlt_dec 0 1); [|lra]. replace (0 / 1) with 0 by field. apply atan_0. }
  rewrite A0, Rabs_R0. rewrite (proj2 (ltb_iff 0 (8 / 100))) by lra. reflexivity.
Qed.

(** time_goal_lane_reached gives the first logged time at which the lane is reached. *)
Theorem C64_first_time : forall X reached (s : SeqModel.seq X),
  (forall t, time_goal_lane_reached reached s = Some (Ok (Some t)) <->
     exists i x, nth_error (iter s) i = Some (t, x) /\ reached x = Some (Ok true) /\ forall j t' x', (j < i)%nat -> nth_error (iter s) j = Some (t', x') -> reached x' = Some (Ok false)) /\
  (time_goal_lane_reached reached s = Some (Ok None) <-> forall t x, In (t, x) (iter s) -> reached x = Some (Ok false)).
Proof.
  intros X reached s. unfold time_goal_lane_reached. generalize (iter s). intro l. induction l as [|[t x] l (IH1 & IH2)]; cbn [reached_loop].
  - split; [intro t; split; [discriminate|intros (i & y & H & _); destruct i; discriminate]|]. split; [intros _ t y []|reflexivity].
  - destruct (reached x) as [[[|]|e]|] eqn:E.
    + split.
      * intro t'. split; [intro H; injection H as <-; exists 0%nat, x; split; [reflexivity|]; split; [exact E|intros; lia]|]. intros (i & y & H & Y & F). destruct i as [|i]; [cbn in H; injection H as <- <-; reflexivity|]. specialize (F 0%nat t x ltac:(lia) eq_refl). congruence.
      * split; [discriminate|]. intro H. specialize (H t x (or_introl eq_refl)). congruence.
    + split.
      * intro t'. rewrite IH1. split.
        -- intros (i & y & H & Y & F). exists (S i), y. split; [exact H|]. split; [exact Y|]. intros [|j] t1 x1 L N; [cbn in N; injection N as <- <-; exact E|exact (F j t1 x1 ltac:(lia) N)].
        -- intros ([|i] & y & H & Y & F); [cbn in H; injection H as <- <-; congruence|]. exists i, y. split; [exact H|]. split; [exact Y|]. intros j t1 x1 L N. exact (F (S j) t1 x1 ltac:(lia) N).
      * rewrite IH2. split; [intros H t1 x1 [Q|I]; [injection Q as <- <-; exact E|exact (H t1 x1 I)]|intros H t1 x1 I; exact (H t1 x1 (or_intror I))].
    + split; [intro t'; split; [discriminate|]|split; [discriminate|intro H; specialize (H t x (or_introl eq_refl)); congruence]]. intros ([|i] & y & H & Y & F); [cbn in H; injection H as <- <-; congruence|]. specialize (F 0%nat t x ltac:(lia) eq_refl). congruence.
    + split; [intro t'; split; [discriminate|]|split; [discriminate|intro H; specialize (H t x (or_introl eq_refl)); congruence]]. intros ([|i] & y & H & Y & F); [cbn in H; injection H as <- <-; congruence|]. specialize (F 0%nat t x ltac:(lia) eq_refl). congruence.
Qed.

Example C64_ex : forall m, exact_minimizer m -> forall tol,
  desired_lane_reached turn_net (fun d => lane_pose_from_SE2Transform m d (mkSE2T (4, 1 / 2) 0) tol) 1 turn_a (Ok false) (8 / 10) (8 / 100) = Some (Ok true) /\
  desired_lane_reached turn_net (fun d => lane_pose_from_SE2Transform m d (mkSE2T (4, 1) 0) tol) 1 turn_a (Ok false) (8 / 10) (8 / 100) = Some (Ok false).
Proof.
  intros m M tol.
  assert (A0 : angle_from_SE2 (SE2_from_translation_angle (0, 0) (0 - 0)) = 0).
  { unfold angle_from_SE2. cbn [SE2_from_translation_angle m00 m10]. replace (0 - 0) with 0 by ring. rewrite cos_0, sin_0. unfold atan2. destruct (Rlt_dec 0 1); [|lra]. replace (0 / 1) with 0 by field. apply atan_0. }
  assert (G : forall y, salong 10 (vdot (vsub (4, y) (0, 0)) (cos 0, sin 0)) = 4 /\ vcross (cos 0, sin 0) (vsub (4, y) (0, 0)) = y).
  { intro y. unfold vdot, vcross, vsub. cbn [fst snd]. rewrite cos_0, sin_0. split; [|ring]. unfold salong. destruct (Rlt_dec _ 0); [lra|]. destruct (Rlt_dec _ 10); lra. }
  split.
  - destruct (st_lane_pose (0, 0) 0 10 2 ltac:(lra) (4, 1 / 2) 0 m M tol) as (lp & E & _ & _ & D & LI & AI & _ & _ & H). destruct (G (1 / 2)) as [G1 G2]. rewrite G1 in AI. rewrite G2 in LI, D. rewrite A0 in H.
    assert (AI' : lp_along_inside lp = true) by (rewrite AI; apply andb_true_iff; split; [apply leb_iff; lra|apply ltb_iff; lra]).
    rewrite (C64_alongside_goal_lane turn_net _ 1 turn_a lp false (8 / 10) (8 / 100) E AI' (le_n 1)). rewrite LI, D, H. rewrite (Rabs_right (1 / 2)), Rabs_R0 by lra. do 2 f_equal. cbn [orb]. rewrite !andb_true_iff, !leb_iff, !ltb_iff. lra.
  - destruct (st_lane_pose (0, 0) 0 10 2 ltac:(lra) (4, 1) 0 m M tol) as (lp & E & _ & _ & D & LI & AI & _ & _ & H). destruct (G 1) as [G1 G2]. rewrite G1 in AI. rewrite G2 in LI, D. rewrite A0 in H.
    assert (AI' : lp_along_inside lp = true) by (rewrite AI; apply andb_true_iff; split; [apply leb_iff; lra|apply ltb_iff; lra]).
    rewrite (C64_alongside_goal_lane turn_net _ 1 turn_a lp false (8 / 10) (8 / 100) E AI' (le_n 1)). rewrite LI, D, H. rewrite (Rabs_right 1), Rabs_R0 by lra. rewrite (proj2 (ltb_false 1 (8 / 10))) by lra. cbn [orb]. rewrite andb_false_r. reflexivity.
Qed.

(** ** C65 *)

(** The prediction always returns.  If the footprints of the two coasting vehicles
    meet at some multiple of 0.1 s up to 3 s, the time to collision is the first such
    multiple, up to the rounding of the sum of the time steps, and the distances are
    what the vehicles cover in that time; otherwise all three are infinite. *)
Theorem C65_first_prediction : forall meet, translation_invariant meet ->
  forall fuel o1 o2 p1 th1 v1 p2 th2 v2, (31 <= fuel)%nat ->
  let at_step k := meet (footprint o1 (coast p1 th1 v1 (INR k / 10)) th1) (footprint o2 (coast p2 th2 v2 (INR k / 10)) th2) in
  (exists k t, (k <= 30)%nat /\ at_step k = true /\ (forall j, (j < k)%nat -> at_step j = false) /\ Rabs (t - INR k / 10) <= 2 / 10 ^ 15 /\
     get_ttc meet fuel o1 o2 p1 th1 v1 p2 th2 v2 = Some (Fn t, Fn (v1 * t), Fn (v2 * t))) \/
  ((forall k, (k <= 30)%nat -> at_step k = false) /\ get_ttc meet fuel o1 o2 p1 th1 v1 p2 th2 v2 = Some (PInf, PInf, PInf)).
Proof.
  intros meet T fuel o1 o2 p1 th1 v1 p2 th2 v2 F at_step. unfold get_ttc, ttc_of_poly_and_state. rewrite !footprint_place. set (delta := vscale (1 / 10) _).
  assert (S : forall k, at_step k = meet (footprint o1 p1 th1) (translate (footprint o2 p2 th2) (vscale (INR k) delta))).
  { intro k. unfold at_step. rewrite !footprint_coast. apply relative_motion; [exact T|]. unfold delta, vadd, vsub, vscale. cbn [fst snd]. f_equal; field. }
  destruct (ttc_loop_spec meet (footprint o1 p1 th1) (footprint o2 p2 th2) delta 30 0 fuel eq_refl F) as [(j & J & H & N & L)|(N & L)].
  - left. exists j, (f_val (ftime j)). split; [lia|]. split; [rewrite S; exact H|]. split; [intros i I; rewrite S; apply N; lia|]. split; [apply ftime_close; lia|].
    change (INR 0) with 0 in L. replace (translate (footprint o2 p2 th2) (vscale 0 delta)) with (footprint o2 p2 th2) in L. 
    + change (ftime 0) with f_zero in L. rewrite L. reflexivity.
    + unfold translate, vscale, vadd. cbn [fst snd]. rewrite <- (map_id (footprint o2 p2 th2)) at 1. apply map_ext. intros [x y]. cbn [fst snd]. f_equal; ring.
  - right. split; [intros k K; rewrite S; apply N; lia|]. change (INR 0) with 0 in L. replace (translate (footprint o2 p2 th2) (vscale 0 delta)) with (footprint o2 p2 th2) in L.
    + change (ftime 0) with f_zero in L. rewrite L. reflexivity.
    + unfold translate, vscale, vadd. cbn [fst snd]. rewrite <- (map_id (footprint o2 p2 th2)) at 1. apply map_ext. intros [x y]. cbn [fst snd]. f_equal; ring.
Qed.

Lemma box_meet_car : forall meet, right_on_boxes meet -> forall a b c d p q, 0 <= a -> 0 <= b -> 0 <= c -> 0 <= d ->
  (meet (footprint (car a b) p 0) (footprint (car c d) q 0) = true <-> Rabs (fst p - fst q) <= a + c /\ Rabs (snd p - snd q) <= b + d).
Proof.
  intros meet RB a b c d p q A B C D. rewrite (RB _ _ _ _ _ _ _ _ _ _ (car_box a b p A B) (car_box c d q C D)). unfold Rabs. destruct (Rcase_abs (fst p - fst q)), (Rcase_abs (snd p - snd q)); lra.
Qed.

(** A meeting between two multiples of 0.1 s is missed: a vehicle at 100 m/s drives
    through a standing one and the time to collision is infinite, for every test of
    polygons that is right about boxes. *)
Theorem C65_tunnelling_refuted : exists o1 p1 v1 o2 p2 t, 0 <= t <= 3 /\ forall meet, translation_invariant meet -> right_on_boxes meet ->
  meet (footprint o1 (coast p1 0 v1 t) 0) (footprint o2 (coast p2 0 0 t) 0) = true /\
  get_ttc meet 32 o1 o2 p1 0 v1 p2 0 0 = Some (PInf, PInf, PInf).
Proof.
  exists (car 2 1), (0, 0), 100, (car 2 1), (5, 0), (5 / 100). split; [lra|]. intros meet T RB. pose proof (box_meet_car meet RB 2 1 2 1) as B. split.
  - apply B; try lra. unfold coast. cbn [fst snd]. rewrite cos_0, sin_0. replace (0 + 5 / 100 * 100 * 1 - (5 + 5 / 100 * 0 * 1)) with 0 by field. replace (0 + 5 / 100 * 100 * 0 - (0 + 5 / 100 * 0 * 0)) with 0 by field. rewrite Rabs_R0. lra.
  - destruct (C65_first_prediction_pf meet T 32 (car 2 1) (car 2 1) (0, 0) 0 100 (5, 0) 0 0 ltac:(lia)) as [(k & t & K & H & _)|[_ E]]; [exfalso|exact E].
    apply B in H as [H _]; try lra. unfold coast in H. cbn [fst snd] in H. rewrite cos_0 in H. replace (0 + INR k / 10 * 100 * 1 - (5 + INR k / 10 * 0 * 1)) with (10 * INR k - 5) in H by field.
    destruct k as [|k]; [cbn [INR] in H; rewrite Rabs_left in H by lra; lra|]. rewrite S_INR in H. pose proof (pos_INR k). rewrite Rabs_right in H by lra. lra.
Qed.

Example C65_ex : translation_invariant box_meet /\ right_on_boxes box_meet /\
  exists t, Rabs (t - 3 / 10) <= 2 / 10 ^ 15 /\ get_ttc box_meet 32 (car 2 1) (car 2 1) (0, 0) 0 10 (7, 0) 0 0 = Some (Fn t, Fn (10 * t), Fn (0 * t)).
Proof.
  split; [|split; [exact box_meet_right|]].
  - exact box_meet_translation.
  - pose proof (box_meet_car box_meet box_meet_right 2 1 2 1) as B.
    assert (ST : forall k, box_meet (footprint (car 2 1) (coast (0, 0) 0 10 (INR k / 10)) 0) (footprint (car 2 1) (coast (7, 0) 0 0 (INR k / 10)) 0) = true <-> Rabs (INR k - 7) <= 4).
    { intro k. rewrite B by lra. unfold coast. cbn [fst snd]. rewrite cos_0, sin_0. replace (0 + INR k / 10 * 10 * 1 - (7 + INR k / 10 * 0 * 1)) with (INR k - 7) by field. replace (0 + INR k / 10 * 10 * 0 - (0 + INR k / 10 * 0 * 0)) with 0 by field. rewrite Rabs_R0. lra. }
    destruct (C65_first_prediction box_meet box_meet_translation 32 (car 2 1) (car 2 1) (0, 0) 0 10 (7, 0) 0 0 ltac:(lia)) as [(k & t & K & H & N & C & E)|[N _]].
    + assert (k = 3%nat) as ->; [|exists t; split; [replace (3 / 10) with (INR 3 / 10) by (cbn [INR]; field); exact C|exact E]].
      apply ST in H. assert (L : ~ (k < 3)%nat). { intro L. do 3 (destruct k as [|k]; [cbn [INR] in H; rewrite Rabs_left in H by lra; lra|]). lia. }
      destruct (Nat.eq_dec k 3) as [|Ne]; [assumption|]. exfalso. specialize (N 3%nat ltac:(lia)). cbv beta in N. rewrite (proj2 (ST 3%nat)) in N; [discriminate|]. cbn [INR]. rewrite Rabs_left by lra. lra.
    + exfalso. specialize (N 3%nat ltac:(lia)). cbv beta in N. rewrite (proj2 (ST 3%nat)) in N; [discriminate|]. cbn [INR]. rewrite Rabs_left by lra. lra.
Qed.

(** ** C66 *)

(** The minimum distance is the least distance between the ego and another player over
    all log times in the window and all players that have not reached their goal, and
    it is attained by the returned player at the returned time; it is infinite if there
    is no such pair. *)
Theorem C66_minimum : forall St Md Gl (logs_at : Qc -> result (list (string * St))) (missions : list (string * Gl)) (models : list (string * Md)) is_fulfilled pos psi outline pdist ego ts r d who w,
  dict missions -> dict models -> (forall t l, logs_at t = Ok l -> dict l) -> StronglySorted Qclt ts ->
  let apart := apart logs_at missions models is_fulfilled pos psi outline pdist ego in
  get_min_dist logs_at missions models is_fulfilled pos psi outline pdist ego ts r = Ok (d, who, w) ->
  (forall t name x, In t ts -> in_range r t -> apart t name x -> ext_le d (Fn x)) /\
  ((d = PInf /\ who = None /\ w = None /\ forall t name x, In t ts -> in_range r t -> ~ apart t name x) \/
   (exists t name x, In t ts /\ in_range r t /\ apart t name x /\ d = Fn x /\ who = Some name /\ w = Some t)).
Proof.
  intros St Md Gl logs_at missions models ff pos psi outline pdist ego ts r d who w NM NO NL S apart H.
  destruct (times_spec logs_at missions models ff pos (fun _ => 0) psi outline pdist NM NO ego r ts NL S (PInf, None, None) d who w H) as (_ & B & C). split; [exact B|]. destruct C as [C|C]; [left|right; exact C].
  injection C as -> -> ->. split; [reflexivity|]. split; [reflexivity|]. split; [reflexivity|]. intros t name x I R A. exact (B t name x I R A).
Qed.

(** The same for one time. *)
Theorem C66_minimum_at_time : forall St Md Gl (logs_at : Qc -> result (list (string * St))) (missions : list (string * Gl)) (models : list (string * Md)) is_fulfilled pos psi outline pdist ego t d who,
  dict missions -> dict models -> (forall t l, logs_at t = Ok l -> dict l) ->
  let apart := apart logs_at missions models is_fulfilled pos psi outline pdist ego in
  get_min_dist_at_t logs_at missions models is_fulfilled pos psi outline pdist ego t = Ok (d, who) ->
  (forall name x, apart t name x -> ext_le d (Fn x)) /\
  ((d = PInf /\ who = None /\ forall name x, ~ apart t name x) \/ (exists name x, apart t name x /\ d = Fn x /\ who = Some name)).
Proof.
  intros St Md Gl logs_at missions models ff pos psi outline pdist ego t d who NM NO NL apart H. exact (at_t_spec logs_at missions models ff pos (fun _ => 0) psi outline pdist NM NO ego t d who NL H).
Qed.

(** It is defined if every logged player has a goal and a model. *)
Theorem C66_defined : forall St Md Gl (logs_at : Qc -> result (list (string * St))) (missions : list (string * Gl)) (models : list (string * Md)) is_fulfilled pos psi outline pdist ego ts r,
  (forall t, In t ts -> in_range r t -> exists l, logs_at t = Ok l /\ forall name x, In (name, x) l -> In name (map fst missions) /\ In name (map fst models)) ->
  (forall g x, exists b, is_fulfilled g x = Ok b) ->
  exists res, get_min_dist logs_at missions models is_fulfilled pos psi outline pdist ego ts r = Ok res.
Proof.
  intros St Md Gl logs_at missions models ff pos psi outline pdist ego ts r H F. unfold get_min_dist. generalize (PInf, None : option string, None : option Qc). induction ts as [|t ts IH]; intro best; [exists best; reflexivity|].
  cbn [min_dist_times]. assert (H' : forall t, In t ts -> in_range r t -> exists l, logs_at t = Ok l /\ forall name x, In (name, x) l -> In name (map fst missions) /\ In name (map fst models)) by (intros t' I; apply H; right; exact I).
  destruct (too_early r t) eqn:E1; [apply IH; exact H'|]. destruct (too_late r t) eqn:E2; [exists best; reflexivity|]. destruct (H t (or_introl eq_refl)) as (l & L & K); [apply range_cases; auto|].
  assert (X : exists da, get_min_dist_at_t logs_at missions models ff pos psi outline pdist ego t = Ok da); [|destruct X as (da & ->); apply IH; exact H'].
  unfold get_min_dist_at_t. rewrite L. cbn [LaneModel.bind].
  assert (G : forall V (d : list (string * V)) k, In k (map fst d) -> exists v, agetE String.eqb d k = Ok v). { intros V dd k I. unfold agetE. destruct (aget String.eqb dd k) as [v|] eqn:A; [exists v; reflexivity|]. apply aget_none in A. contradiction. }
  assert (RM : exists l', remove_finished_players missions ff l = Ok l' /\ forall name x, In (name, x) l' -> In (name, x) l).
  { clear L. induction l as [|[n x] l IHl]; [exists []; split; [reflexivity|auto]|]. destruct IHl as (l' & E & I); [intros name y J; apply (K name y); right; exact J|]. cbn [remove_finished_players].
    destruct (G _ missions n) as (g & ->); [apply (K n x); left; reflexivity|]. cbn [LaneModel.bind]. destruct (F g x) as (b & ->). cbn [LaneModel.bind]. rewrite E. cbn [LaneModel.bind]. eexists. split; [reflexivity|].
    intros name y J. destruct b; [right; exact (I name y J)|]. destruct J as [J|J]; [left; exact J|right; exact (I name y J)]. }
  destruct RM as (l' & -> & SUB). cbn [LaneModel.bind]. destruct (aget String.eqb l' ego) as [xe|] eqn:EG; [|eexists; reflexivity].
  assert (ME : In ego (map fst models)). { destruct (in_dec string_dec ego (map fst l')) as [I|I]; [|apply aget_none in I; congruence]. apply in_map_iff in I as ([n y] & E & I). cbn [fst] in E. subst n. apply (K ego y). exact (SUB ego y I). }
  destruct (G _ models ego ME) as (me & ->). cbn [LaneModel.bind]. generalize (PInf, None : option string). assert (SUB' : forall name x, In (name, x) l' -> In name (map fst models)) by (intros name x I; apply (K name x), SUB, I). clear - SUB' G. induction l' as [|[n x] l' IHl]; intro b; [exists b; reflexivity|]. cbn [min_dist_loop].
  assert (SUB2 : forall name x, In (name, x) l' -> In name (map fst models)) by (intros name y I; apply (SUB' name y); right; exact I). destruct (String.eqb n ego); [apply IHl; exact SUB2|]. destruct (G _ models n) as (m & ->); [apply (SUB' n x); left; reflexivity|]. cbn [LaneModel.bind]. apply IHl. exact SUB2.
Qed.

(** A single logged player without a goal makes the metric raise KeyError, although goals
    are optional in a simulation. *)
Theorem C66_player_without_goal_refuted : forall St Md Gl (logs_at : Qc -> result (list (string * St))) (missions : list (string * Gl)) (models : list (string * Md)) is_fulfilled pos psi outline pdist ego t ts r l name x,
  in_range r t -> logs_at t = Ok l -> In (name, x) l -> ~ In name (map fst missions) ->
  forall res, get_min_dist logs_at missions models is_fulfilled pos psi outline pdist ego (t :: ts) r <> Ok res.
Proof.
  intros St Md Gl logs_at missions models ff pos psi outline pdist ego t ts r l name x R L I NM res H. apply range_cases in R as [R1 R2]. unfold get_min_dist in H. cbn [min_dist_times] in H. rewrite R1, R2 in H. unfold get_min_dist_at_t in H. rewrite L in H. cbn [LaneModel.bind] in H.
  assert (E : exists e, remove_finished_players missions ff l = Err e).
  { clear - I NM. induction l as [|[n y] l IH]; [contradiction|]. cbn [remove_finished_players]. unfold agetE. destruct I as [E|I]; [injection E as -> ->; apply aget_none in NM; rewrite NM; eexists; reflexivity|]. destruct (aget String.eqb missions n) as [g|]; cbn [LaneModel.bind]; [|eexists; reflexivity]. destruct (ff g y); cbn [LaneModel.bind]; [|eexists; reflexivity]. destruct (IH I) as (e & ->). eexists; reflexivity. }
  destruct E as (e & E). rewrite E in H. discriminate.
Qed.

(** Three players on a line with standing cars; the second has reached its goal. *)
Definition ex_log (t : Qc) : result (list (string * R)) := Ok [("Ego", 0); ("A", 5); ("B", 9)]%string.

Example C66_ex : get_min_dist ex_log [("Ego", false); ("A", true); ("B", false)]%string [("Ego", car 2 1); ("A", car 2 1); ("B", car 2 1)]%string (fun (g : bool) (_ : R) => Ok g) (fun x => (x, 0)) (fun _ => 0) (fun o => o)
    (fun p q => fst (nth 2 q (0, 0)) - fst (nth 0 p (0, 0))) "Ego"%string [qz 0; qz 1] (None, None) = Ok (Fn 5, Some "B"%string, Some (qz 0)).
Proof.
  set (pd := fun p q : polygon => fst (nth 2 q (0, 0)) - fst (nth 0 p (0, 0))).
  assert (E : get_dist (fun x => (x, 0)) (fun _ : R => 0) (fun o : polygon => o) pd 0 9 (car 2 1) (car 2 1) = 5).
  { unfold pd, get_dist, car, SE2_apply_T2, SE2_from_translation_angle. cbn [map nth m00 m01 m02 m10 m11 m12 fst snd]. rewrite cos_0, sin_0. ring. }
  clearbody pd. cbv [get_min_dist min_dist_times get_min_dist_at_t remove_finished_players agetE aget String.eqb Ascii.eqb Bool.eqb LaneModel.bind min_dist_loop fst snd ext_ltb ex_log too_early too_late]. fold (car 2 1). rewrite !E. rewrite (proj2 (ltb_false 5 5)) by lra. reflexivity.
Qed.

(** ** C87 *)

(** A collision of the ego is reported exactly when some report involves it. *)
Theorem C87_has_collision : forall cr_list, has_collision cr_list = true <-> exists players, In players cr_list /\ In "Ego"%string players.
Proof.
  intro l. unfold has_collision. cbv zeta. assert (E : forall s, fold_left (fun s players => (s ++ players)%list) l s = (s ++ concat l)%list). { induction l as [|p l IH]; intro s; cbn [fold_left concat]; [rewrite app_nil_r; reflexivity|]. rewrite IH, app_assoc. reflexivity. }
  rewrite E. cbn [app]. transitivity (existsb (String.eqb "Ego"%string) (concat l) = true); [destruct (existsb _ _); split; auto|]. rewrite existsb_exists. split.
  - intros (x & I & Q). apply String.eqb_eq in Q as <-. apply in_concat in I as (p & P & I). exists p. auto.
  - intros (p & P & I). exists "Ego"%string. split; [apply in_concat; exists p; auto|apply String.eqb_refl].
Qed.

(** The minimum time to collision and the maximum required deceleration are the minimum
    and the maximum over all log times in the window and all players that have not
    reached their goal and close in on the ego, and they are attained by the returned
    players at the returned times. *)
Theorem C87_min_ttc_max_drac : forall St Md Gl (logs_at : Qc -> result (list (string * St))) (missions : list (string * Gl)) (models : list (string * Md)) is_fulfilled pos vx psi outline meet ego ts r d dw dt a aw at',
  translation_invariant meet -> dict missions -> dict models -> (forall t l, logs_at t = Ok l -> dict l) -> StronglySorted Qclt ts ->
  let rated := rated logs_at missions models is_fulfilled pos vx psi outline meet ego in
  get_min_ttc_max_drac logs_at missions models is_fulfilled pos vx psi outline meet ego ts r = Ok ((d, dw, dt), (a, aw, at')) ->
  (forall t name v ttc dtc, In t ts -> in_range r t -> rated t name v ttc dtc -> ext_le d ttc /\ forall x, needed v dtc x -> ext_le x a) /\
  ((d = PInf /\ dw = None /\ dt = None) \/
   (exists t name v ttc dtc, In t ts /\ in_range r t /\ rated t name v ttc dtc /\ d = ttc /\ d <> PInf /\ dw = Some name /\ dt = Some t)) /\
  ((a = NInf /\ aw = None /\ at' = None /\ forall t name v ttc dtc, In t ts -> in_range r t -> ~ rated t name v ttc dtc) \/
   (exists t name v ttc dtc, In t ts /\ in_range r t /\ rated t name v ttc dtc /\ needed v dtc a /\ aw = Some name /\ at' = Some t)).
Proof.
  intros St Md Gl logs_at missions models ff pos vx psi outline meet ego ts r d dw dt a aw at' TI NM NO NL S rated H.
  assert (TT : forall o1 o2 p1 th1 v1 p2 th2 v2, get_ttc meet 32 o1 o2 p1 th1 v1 p2 th2 v2 <> None) by (intros o1 o2 p1 th1 v1 p2 th2 v2; destruct (C65_first_prediction_pf meet TI 32 o1 o2 p1 th1 v1 p2 th2 v2 ltac:(lia)) as [(k & t & _ & _ & _ & _ & ->)|[_ ->]]; discriminate).
  destruct (ttc_times_spec logs_at missions models ff pos vx psi outline meet NM NO TT ego r ts NL S _ d dw dt a aw at' H) as (_ & _ & C & D & E). cbn [fst snd] in D, E. split; [|split].
  - intros t name v ttc dtc I R RA. destruct (C t name v ttc dtc I R RA) as [C1 C2]. split; [exact C1|]. intros x X. apply needed_fun in X as ->. exact C2.
  - destruct D as [D|(t & name & v & ttc & dtc & I & R & RA & D1 & D2 & D3 & D4)]; [left; injection D as -> -> ->; auto|right; exists t, name, v, ttc, dtc; auto 10].
  - destruct E as [E|(t & name & v & ttc & dtc & I & R & RA & E1 & E2 & E3)]; [left; injection E as -> -> ->|right; exists t, name, v, ttc, dtc; split; [exact I|]; split; [exact R|]; split; [exact RA|]; split; [rewrite E1; apply drac_needed|auto]].
    split; [reflexivity|]. split; [reflexivity|]. split; [reflexivity|]. intros t name v ttc dtc I R RA. destruct (C t name v ttc dtc I R RA) as [_ C2]. destruct dtc as [|y|]; cbn [drac_of] in C2; [exact C2| |exact C2]. destruct (ltb 0 y); exact C2.
Qed.

(** What the ratings say: with contact predicted after the time [t], the required
    deceleration of an ego with positive speed is half its speed over that time; an ego
    that stands or reverses is rated infinite. *)
Theorem C87_drac_value : forall St Md Gl (logs_at : Qc -> result (list (string * St))) (missions : list (string * Gl)) (models : list (string * Md)) is_fulfilled pos vx psi outline meet ego t name v ttc dtc a,
  translation_invariant meet -> rated logs_at missions models is_fulfilled pos vx psi outline meet ego t name v (Fn ttc) dtc -> needed v dtc a ->
  (0 < v -> 0 < ttc -> a = Fn (v / (2 * ttc))) /\ (v <= 0 -> 0 <= ttc -> a = PInf).
Proof.
  intros St Md Gl logs_at missions models ff pos vx psi outline meet ego t name v ttc dtc a TI (xe & x & me & m & d2 & _ & _ & _ & _ & _ & _ & -> & G) N.
  assert (dtc = Fn (vx xe * ttc)) as ->. { destruct (C65_first_prediction_pf meet TI 32 (outline me) (outline m) (pos xe) (psi xe) (vx xe) (pos x) (psi x) (vx x) ltac:(lia)) as [(k & t' & _ & _ & _ & _ & E)|[_ E]]; rewrite E in G; [injection G as <- <- _; reflexivity|discriminate]. }
  cbn [needed] in N. split.
  - intros V T. assert (0 < vx xe * ttc) by nra. destruct N as [(_ & a' & -> & E)|[L _]]; [|lra]. f_equal. apply (Rmult_eq_reg_r (2 * (vx xe * ttc))); [|nra]. replace (vx xe / (2 * ttc) * (2 * (vx xe * ttc))) with (vx xe ^ 2) by (field; lra). lra.
  - intros V T. destruct N as [(L & _)|[_ E]]; [nra|exact E].
Qed.

Lemma two_skipped : forall {St Md Gl} (logs_at : Qc -> result (list (string * St))) pos vx {psi outline meet} n1 n2 x1 x2 (g1 g2 : Gl) (m1 m2 : Md) t, n1 <> n2 -> logs_at t = Ok [(n1, x1); (n2, x2)] -> skipped pos vx psi x1 x2 = true ->
  get_ttc_drac_at_t logs_at [(n1, g1); (n2, g2)] [(n1, m1); (n2, m2)] (fun _ _ => Ok false) pos vx psi outline meet n1 t = Ok (PInf, None, (NInf, None)).
Proof.
  intros St Md Gl logs_at pos vx psi outline meet n1 n2 x1 x2 g1 g2 m1 m2 t N L SK. apply String.eqb_neq in N. assert (N' := N). rewrite String.eqb_sym in N'.
  assert (AC : forall V k (v : V) l k', aget String.eqb ((k, v) :: l) k' = if String.eqb k k' then Some v else aget String.eqb l k') by reflexivity.
  assert (G1 : forall V (a b : V), agetE String.eqb [(n1, a); (n2, b)] n1 = Ok a) by (intros; unfold agetE; rewrite AC, String.eqb_refl; reflexivity).
  assert (G2 : forall V (a b : V), agetE String.eqb [(n1, a); (n2, b)] n2 = Ok b) by (intros; unfold agetE; rewrite !AC, N, String.eqb_refl; reflexivity).
  unfold get_ttc_drac_at_t. rewrite L. cbn [LaneModel.bind remove_finished_players]. rewrite !G1, !G2. cbn [LaneModel.bind]. rewrite AC, String.eqb_refl. cbn [ttc_loop]. rewrite String.eqb_refl, N', G2. cbn [LaneModel.bind]. rewrite SK. reflexivity.
Qed.

(** Two vehicles, a long one driving along the x axis and the ego which turns into its
    side. *)
Definition side_log (t : Qc) : result (list (string * (vec * R * R))) := Ok [("Ego", ((-8, 4), 5, - (PI / 2))); ("Truck", ((0, 0), 3, 0))]%string.

(** Contact is predicted within 0.2 s, and still no time to collision is reported,
    because the distance of the centres grows: for every polygon test that is right about
    boxes. *)
Theorem C87_missed_contact_refuted : exists logs_at (missions : list (string * unit)) models is_fulfilled, forall meet, translation_invariant meet -> right_on_boxes meet ->
  let pos := fun x : vec * R * R => fst (fst x) in let vx := fun x : vec * R * R => snd (fst x) in let psi := fun x : vec * R * R => snd x in
  (exists xe x me m, logs_at 0%Qc = Ok [("Ego", xe); ("Truck", x)]%string /\ models = [("Ego", me); ("Truck", m)]%string /\
    meet (footprint me (pos xe) (psi xe)) (footprint m (pos x) (psi x)) = false /\
    meet (footprint me (coast (pos xe) (psi xe) (vx xe) (2 / 10)) (psi xe)) (footprint m (coast (pos x) (psi x) (vx x) (2 / 10)) (psi x)) = true) /\
  get_min_ttc_max_drac logs_at missions models is_fulfilled pos vx psi (fun o : polygon => o) meet "Ego"%string [0%Qc] (None, None) = Ok ((PInf, None, None), (NInf, None, None)).
Proof.
  exists side_log, [("Ego", tt); ("Truck", tt)]%string, [("Ego", car 2 1); ("Truck", car 10 1)]%string, (fun _ _ => Ok false). intros meet TI RB pos vx psi. split.
  - exists ((-8, 4), 5, - (PI / 2)), ((0, 0), 3, 0), (car 2 1), (car 10 1). split; [reflexivity|]. split; [reflexivity|].
    assert (B : forall p q, meet (footprint (car 2 1) p (- (PI / 2))) (footprint (car 10 1) q 0) = true <-> fst p - 1 <= fst q + 10 /\ fst q - 10 <= fst p + 1 /\ snd p - 2 <= snd q + 1 /\ snd q - 1 <= snd p + 2).
    { intros p q. apply RB; [apply car_box_down; lra|apply car_box; lra]. }
    unfold pos, vx, psi. cbn [fst snd]. split.
    + match goal with |- ?x = false => destruct x eqn:E; [|reflexivity] end. apply B in E. cbn [fst snd] in E. lra.
    + apply B. unfold coast. cbn [fst snd]. rewrite cos_neg, sin_neg, cos_PI2, sin_PI2, cos_0, sin_0. lra.
  - assert (SK : skipped pos vx psi ((-8, 4), 5, - (PI / 2)) ((0, 0), 3, 0) = true).
    { destruct (skipped _ _ _ _ _) eqn:E; [reflexivity|]. apply skipped_closing in E. unfold closing, pos, vx, psi, vdot, vsub, vscale in E. cbn [fst snd] in E. rewrite cos_neg, sin_neg, cos_PI2, sin_PI2, cos_0, sin_0 in E. destruct E as [E|[E _]]; [injection E as E1 E2; lra|lra]. }
    unfold get_min_ttc_max_drac. cbn [ttc_times too_early too_late fst snd]. rewrite (two_skipped side_log _ _ "Ego"%string "Truck"%string _ _ _ _ _ _ 0%Qc ltac:(discriminate) eq_refl SK). reflexivity.
Qed.

Example C87_ex : has_collision [["A"; "B"]; ["C"; "Ego"]]%string = true /\ has_collision [["A"; "B"]; []]%string = false.
Proof. split; reflexivity. Qed.

(** ** C85 *)

(** Restricting the metric to a window is the metric of the subsequence. *)
Theorem C85_window : forall U (acc : U -> R) (s s' : SeqModel.seq U) a b x, obtainable s -> get_subsequence s a b = Ok s' ->
  (get_acc_rms acc s (Some a, Some b) = Ok x <-> get_acc_rms acc s' (None, None) = Ok x).
Proof.
  intros U acc s s' a b x O E. pose proof (ob_sub U s s' a b O E) as O'. pose proof (obtainable_WF U s' O') as W'. destruct (C05_subsequence_is_closed_window_pf U s a b O) as (H1 & H2).
  destruct (Qclt_le_dec b a) as [L|L]; [rewrite (H2 L) in E; discriminate|]. destruct (H1 L) as (s2 & E2 & F & _). rewrite E in E2. injection E2 as <-.
  assert (G : get_acc_rms acc s (Some a, Some b) = acc_rms_of (map acc (vals s'))). { unfold get_acc_rms. cbn [fst snd LaneModel.bind]. rewrite <- F, <- (map_map snd acc), iter_snd by exact W'. reflexivity. }
  rewrite G. destruct (tss s') as [|t0 ts] eqn:T.
  - destruct W' as [W1 _]. rewrite T in W1. destruct (vals s'); [|discriminate]. unfold get_acc_rms, get_start. cbn [fst]. rewrite T. cbn. split; discriminate.
  - rewrite acc_rms_full; [reflexivity|exact W'|rewrite T; discriminate].
Qed.

(** It is defined for two or more samples. *)
Theorem C85_defined : forall U (acc : U -> R) (s : SeqModel.seq U), obtainable s ->
  ((exists x, get_acc_rms acc s (None, None) = Ok x) <-> (2 <= length (vals s))%nat).
Proof.
  intros U acc s O. pose proof (obtainable_WF U s O) as W. destruct (tss s) as [|t0 ts] eqn:T.
  - destruct W as [W1 _]. rewrite T in W1. destruct (vals s); [|discriminate]. unfold get_acc_rms, get_start. cbn [fst]. rewrite T. cbn. split; [intros (x & H); discriminate|lia].
  - rewrite acc_rms_full by (try exact W; rewrite T; discriminate). rewrite rms_defined, map_length. reflexivity.
Qed.

(** It scales with the accelerations. *)
Theorem C85_homogeneous : forall U (acc : U -> R) c (s : SeqModel.seq U) r x, get_acc_rms acc s r = Ok x -> get_acc_rms (fun u => c * acc u) s r = Ok (Rabs c * x).
Proof.
  intros U acc c s r x H. unfold get_acc_rms in *. destruct (match fst r with Some a => Ok a | None => get_start s end) as [lo|]; cbn [LaneModel.bind] in *; [|discriminate]. destruct (match snd r with Some a => Ok a | None => get_end s end) as [hi|]; cbn [LaneModel.bind] in *; [|discriminate].
  rewrite <- (map_map (fun tv => acc (snd tv)) (Rmult c)). rewrite rms_scale, H. reflexivity.
Qed.

(** An oscillation with [k] periods in an even number [n] of samples, taken every 0.1 s, is
    weighted with the weight of its frequency [10 k / n], whatever its phase. *)
Theorem C85_oscillation : forall U (acc : U -> R) (s : SeqModel.seq U) A p k h, obtainable s -> (0 < k < h)%nat ->
  map acc (vals s) = map (fun j => A * cos (2 * PI * INR j * INR k / INR (2 * h) + p)) (List.seq 0 (2 * h)) ->
  get_acc_rms acc s (None, None) = Ok (Rabs A * weight (10 * INR k / INR (2 * h)) / sqrt 2).
Proof.
  intros U acc s A p k h O K E. pose proof (obtainable_WF U s O) as W. rewrite acc_rms_full; [|exact W|].
  - rewrite E. pose proof (rms_sinusoid A p h k K) as R. unfold angle in R. rewrite R. do 4 f_equal. assert (0 < INR (2 * h)) by (apply lt_0_INR; lia). field. lra.
  - intro T. apply (f_equal (@length _)) in E. rewrite !map_length, seq_length in E. destruct W as [W1 _]. rewrite T in W1. cbn in W1. lia.
Qed.

(** A constant acceleration is weighted with the weight of frequency zero if the number
    of samples is even. *)
Theorem C85_constant_even : forall U (acc : U -> R) (s : SeqModel.seq U) a h, obtainable s -> map acc (vals s) = repeat a (2 * h) -> (0 < h)%nat ->
  get_acc_rms acc s (None, None) = Ok (Rabs a * weight 0).
Proof.
  intros U acc s a h O E H. pose proof (obtainable_WF U s O) as W. rewrite acc_rms_full; [|exact W|].
  - rewrite E, rms_constant by lia. rewrite half_even. f_equal. assert (0 < INR (2 * h)) by (apply lt_0_INR; lia). field. lra.
  - intro T. apply (f_equal (@length _)) in E. rewrite map_length, repeat_length in E. destruct W as [W1 _]. rewrite T in W1. cbn in W1. lia.
Qed.

(** For an odd number of samples it is not: the result is too large by a factor, because
    the inverse transform returns one sample less than was transformed; one more sample
    of the same acceleration changes the metric. *)
Theorem C85_constant_odd_refuted : forall U (acc : U -> R) (s : SeqModel.seq U) a h, obtainable s -> map acc (vals s) = repeat a (2 * h + 1) -> (0 < h)%nat -> a <> 0 ->
  get_acc_rms acc s (None, None) = Ok (Rabs a * weight 0 * INR (2 * h + 1) / INR (2 * h)) /\ Rabs a * weight 0 < Rabs a * weight 0 * INR (2 * h + 1) / INR (2 * h).
Proof.
  intros U acc s a h O E H NA. pose proof (obtainable_WF U s O) as W. assert (HP : 0 < INR (2 * h)) by (apply lt_0_INR; lia). split.
  - rewrite acc_rms_full; [|exact W|].
    + rewrite E, rms_constant by lia. replace ((2 * h + 1) / 2)%nat with h by (rewrite Nat.add_comm, Nat.mul_comm, Nat.div_add by lia; reflexivity). reflexivity.
    + intro T. apply (f_equal (@length _)) in E. rewrite map_length, repeat_length in E. destruct W as [W1 _]. rewrite T in W1. cbn in W1. lia.
  - assert (P : 0 < Rabs a * weight 0) by (apply Rmult_lt_0_compat; [apply Rabs_pos_lt; exact NA|unfold weight; lra]). set (c := Rabs a * weight 0) in *. apply (Rmult_lt_reg_r (INR (2 * h))); [exact HP|]. unfold Rdiv. rewrite Rmult_assoc, Rinv_l by lra. rewrite plus_INR. cbn [INR]. nra.
Qed.

(** The timestamps play no role: the samples are taken to be 0.1 s apart. *)
Theorem C85_timestamps_ignored_refuted : forall U (acc : U -> R) (s s' : SeqModel.seq U), obtainable s -> obtainable s' -> vals s = vals s' -> get_acc_rms acc s (None, None) = get_acc_rms acc s' (None, None).
Proof.
  intros U acc s s' O O' E. pose proof (obtainable_WF U s O) as W. pose proof (obtainable_WF U s' O') as W'. pose proof W as [L _]. pose proof W' as [L' _]. rewrite E in L. destruct (vals s') as [|v vs] eqn:V.
  - unfold get_acc_rms, get_start. destruct (tss s); [|discriminate]. destruct (tss s'); [reflexivity|discriminate].
  - rewrite !acc_rms_full; [rewrite E, V; reflexivity|exact W'|intro T; rewrite T in L'; discriminate|exact W|intro T; rewrite T in L; discriminate].
Qed.

(** The weights lie between zero and 0.6: the metric never amplifies a frequency. *)
Theorem C85_weight_range : forall f, 0 <= f -> acc_freq_filter f = weight f /\ 0 < weight f < 6 / 10.
Proof.
  intros f F. split; [apply filter_weight|]. unfold weight. assert (0 <= f * f) by nra. assert (0 <= f * f * f) by nra. assert (D : 0 < f * f * f + 1502 / 100 * f * f + 5163 / 100 * f + 4761 / 100) by nra.
  split; [apply Rmult_lt_0_compat; [nra|apply Rinv_0_lt_compat; exact D]|]. apply (Rmult_lt_reg_r (f * f * f + 1502 / 100 * f * f + 5163 / 100 * f + 4761 / 100)); [exact D|]. unfold Rdiv at 1. rewrite Rmult_assoc, Rinv_l by lra.
  assert (0 <= f * (6 / 10 * f * f - 5538 / 1000 * f + 24952 / 1000)). { apply Rmult_le_pos; [exact F|]. pose proof (pow2_ge_0 (f - 4615 / 1000)). nra. } nra.
Qed.

Example C85_ex : let s := mkSeq [qz 0; qz 1; qz 2; qz 3] [3; 3; 3; 3] true in
  get_acc_rms (fun x => x) s (None, None) = Ok (3 * weight 0) /\ weight 0 = 7725 / 47610.
Proof.
  cbv zeta. split; [|unfold weight; field]. rewrite (C85_constant_even R (fun x => x) _ 3 2); [rewrite Rabs_right by lra; reflexivity|apply (ob_new _ true [qz 0; qz 1; qz 2; qz 3] [3; 3; 3; 3]); reflexivity|reflexivity|lia].
Qed.

Example C85_ex_oscillation : let s := mkSeq [qz 0; qz 1; qz 2; qz 3] [2; 0; -2; 0] true in
  get_acc_rms (fun x => x) s (None, None) = Ok (2 * weight (10 / 4) / sqrt 2).
Proof.
  cbv zeta. rewrite (C85_oscillation R (fun x => x) _ 2 0 1 2).
  - rewrite Rabs_right by lra. do 3 f_equal. f_equal. cbn [INR Nat.mul Nat.add]. field.
  - apply (ob_new _ true [qz 0; qz 1; qz 2; qz 3] [2; 0; -2; 0]). reflexivity.
  - lia.
  - cbn [map vals List.seq Nat.mul Nat.add INR]. replace (2 * PI * 0 * 1 / (1 + 1 + 1 + 1) + 0) with 0 by field. replace (2 * PI * 1 * 1 / (1 + 1 + 1 + 1) + 0) with (PI / 2) by field. replace (2 * PI * (1 + 1) * 1 / (1 + 1 + 1 + 1) + 0) with PI by field. replace (2 * PI * (1 + 1 + 1) * 1 / (1 + 1 + 1 + 1) + 0) with (3 * (PI / 2)) by field.
    rewrite cos_0, cos_PI2, cos_PI, cos_3PI2. repeat (f_equal; try ring).
Qed.
