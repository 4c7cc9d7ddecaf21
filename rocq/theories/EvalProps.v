(* Generated from tools/Eval.src by tools/gen_props.py. *)
(** Properties of the evaluation metrics. *)
From Coq Require Import String Reals Lra Psatz List Bool ZArith Lia Arith QArith Qcanon Sorted.
From Verif Require Import Base Num SeqModel SeqSpec SeqProofs SeqProofs2 SeqMain R2 GeoModel GeoSpec GeoProofs LaneModel LaneSpec LaneProofs LaneMain EvalModel EvalSpec EvalProofs EvalFreq LaneStraight.
Import ListNotations.
Open Scope R_scope.
From Verif Require Import EvalMain.

(** ** C62 *)

(** The maximum jerk bounds the slope of the commands over every sampling interval
    that ends in the window, and is the slope of one of them (or zero). *)
Theorem C62_max_jerk : forall U (acc : U -> Qc) (s : SeqModel.seq U) r, obtainable s -> typed s = true ->
  exists m, get_max_jerk acc s r = Ok m /\
    (forall t0 v0 t1 v1, adjacent s t0 v0 t1 v1 -> in_range r t1 -> (qabs ((acc v1 - acc v0) / (t1 - t0)) <= m)%Qc) /\
    (m = 0%Qc \/ exists t0 v0 t1 v1, adjacent s t0 v0 t1 v1 /\ in_range r t1 /\ m = qabs ((acc v1 - acc v0) / (t1 - t0))%Qc).
Proof. exact C62_max_jerk_pf. Qed.
Print Assumptions C62_max_jerk.

(** The result for an empty log, a single command or a window without commands. *)
Theorem C62_no_interval : forall U (acc : U -> Qc) (s : SeqModel.seq U) r, obtainable s -> typed s = true ->
  (forall t, In t (tl (tss s)) -> ~ in_range r t) -> get_max_jerk acc s r = Ok 0%Qc.
Proof. exact C62_no_interval_pf. Qed.
Print Assumptions C62_no_interval.

Example C62_ex : let s := mkSeq [qz 0; qz 1; qz 3; qz 4] [qz 0; qz 2; qz (-4); qz 50] true in
  get_max_jerk (fun x => x) s (None, Some (qz 3)) = Ok (qz 3) /\ get_max_jerk (fun x => x) s (Some (qz 1), Some (qz 2)) = Ok (qz 2) /\ get_max_jerk (fun x => x) s (None, None) = Ok (qz 54).
Proof. vm_compute. auto. Qed.

(** ** C63 *)

(** The distance travelled is the length of the line through the logged positions. *)
Theorem C63_distance : forall X (pos : X -> vec) (s : SeqModel.seq X), obtainable s -> typed s = true ->
  distance_traveled pos s = Ok (path_length (map pos (vals s))).
Proof. exact C63_distance_pf. Qed.
Print Assumptions C63_distance.

(** It is at least the distance between the first and the last position. *)
Theorem C63_displacement : forall X (pos : X -> vec) (s : SeqModel.seq X) d a b, obtainable s -> typed s = true ->
  distance_traveled pos s = Ok d -> nth_error (vals s) 0 = Some a -> last_of (vals s) = Some b -> 0 <= d /\ vdist (pos a) (pos b) <= d.
Proof. exact C63_displacement_pf. Qed.
Print Assumptions C63_displacement.

(** A player that stays where it is travels no distance. *)
Theorem C63_rest : forall X (pos : X -> vec) (s : SeqModel.seq X) p, obtainable s -> typed s = true ->
  (forall x, In x (vals s) -> pos x = p) -> distance_traveled pos s = Ok 0.
Proof. exact C63_rest_pf. Qed.
Print Assumptions C63_rest.

(** Splitting the log at one of its samples splits the distance. *)
Theorem C63_split : forall X (pos : X -> vec) (s : SeqModel.seq X) a t b, obtainable s -> typed s = true ->
  get_start s = Ok a -> get_end s = Ok b -> In t (tss s) ->
  exists s1 s2 d1 d2, get_subsequence s a t = Ok s1 /\ get_subsequence s t b = Ok s2 /\
    distance_traveled pos s1 = Ok d1 /\ distance_traveled pos s2 = Ok d2 /\ distance_traveled pos s = Ok (d1 + d2).
Proof. exact C63_split_pf. Qed.
Print Assumptions C63_split.

Example C63_ex : let s := mkSeq [qz 0; qz 1; qz 3] [(0, 0); (3, 4); (3, 0)] true in
  distance_traveled (fun x : vec => x) s = Ok 9 /\ vdist (0, 0) (3, 0) = 3.
Proof.
  assert (V : forall a b c, 0 <= c -> (fst a - fst b) * (fst a - fst b) + (snd a - snd b) * (snd a - snd b) = c * c -> vdist a b = c) by (intros a b c C E; unfold vdist, vnorm, vdot, vsub; cbn [fst snd]; rewrite E; apply sqrt_square; exact C).
  cbv zeta. split; [|apply V; cbn; lra]. rewrite C63_distance; [|apply (ob_new _ true [qz 0; qz 1; qz 3] [(0, 0); (3, 4); (3, 0)]); reflexivity|reflexivity]. cbn [map vals path_length]. rewrite (V (0, 0) (3, 4) 5), (V (3, 4) (3, 0) 4) by (cbn; lra). f_equal. lra.
Qed.

(** ** C64 *)

(** For a vehicle alongside the goal lane the answer is: the goal is fulfilled or the
    vehicle is within the tolerances. *)
Theorem C64_alongside_goal_lane : forall n on fuel goal lp ff pos_tol heading_tol, on goal = Ok lp -> lp_along_inside lp = true -> (1 <= fuel)%nat ->
  desired_lane_reached n on fuel goal (Ok ff) pos_tol heading_tol =
    Some (Ok (ff || (lp_lateral_inside lp && ltb (lp_distance_from_center lp) pos_tol && ltb (Rabs (lp_relative_heading lp)) heading_tol))).
Proof. exact C64_alongside_goal_lane_pf. Qed.
Print Assumptions C64_alongside_goal_lane.

(** The next lane of a lane that has none is None; of others it is the lane of the first
    successor or predecessor in the network. *)
Theorem C64_next_lane : forall n d c, get_lanelet_from_dglanelet n d = Ok c ->
  (cr_succ c = [] -> get_successor_dglane n d = Ok None) /\ (cr_pred c = [] -> get_predecessor_dglane n d = Ok None) /\
  (forall i r c', cr_succ c = i :: r -> find_by_id n i = Some c' -> get_successor_dglane n d = Ok (Some (cr_dg c'))) /\
  (forall i r c', cr_pred c = i :: r -> find_by_id n i = Some c' -> get_predecessor_dglane n d = Ok (Some (cr_dg c'))).
Proof. exact C64_next_lane_pf. Qed.
Print Assumptions C64_next_lane.

(** At the ends of the network the search stops, and the answer is given for the lane it
    got to. *)
Theorem C64_ends : forall n on fuel goal c lp ff pos_tol heading_tol, on goal = Ok lp -> get_lanelet_from_dglanelet n goal = Ok c ->
  (lp_along_after lp = true /\ cr_succ c = []) \/ (lp_along_after lp = false /\ lp_along_before lp = true /\ cr_pred c = []) -> (1 <= fuel)%nat ->
  desired_lane_reached n on fuel goal (Ok ff) pos_tol heading_tol =
    Some (Ok (ff || (lp_lateral_inside lp && ltb (lp_distance_from_center lp) pos_tol && ltb (Rabs (lp_relative_heading lp)) heading_tol))).
Proof. exact C64_ends_pf. Qed.
Print Assumptions C64_ends.

(** A positive answer means that the goal is fulfilled or that the vehicle is within
    the tolerances of a lane linked to the goal lane. *)
Theorem C64_positive_answer : forall n on fuel goal ff pos_tol heading_tol, desired_lane_reached n on fuel goal ff pos_tol heading_tol = Some (Ok true) ->
  ff = Ok true \/ exists d lp, reachable n goal d /\ on d = Ok lp /\ lp_lateral_inside lp = true /\ lp_distance_from_center lp < pos_tol /\ Rabs (lp_relative_heading lp) < heading_tol.
Proof. exact C64_positive_answer_pf. Qed.
Print Assumptions C64_positive_answer.

(** The search either returns within as many rounds as the network has lanes, plus
    one, or never. *)
Theorem C64_returns_soon_or_never : forall n on goal ff pos_tol heading_tol,
  desired_lane_reached n on (length (n_lanes n) + 1) goal ff pos_tol heading_tol = None ->
  forall fuel, desired_lane_reached n on fuel goal ff pos_tol heading_tol = None.
Proof. exact C64_returns_soon_or_never_pf. Qed.
Print Assumptions C64_returns_soon_or_never.

(** It returns if the network has no loops and no gaps: a position beyond the end of a
    lane is not before the start of its successor, and the other way round. *)
Theorem C64_returns_partial : forall n m q tol goal ff pos_tol heading_tol, let on := fun d => lane_pose_from_SE2_generic m d q tol in
  (exists rank : lanelet -> nat, forall d d', get_successor_dglane n d = Ok (Some d') -> (rank d' < rank d)%nat) ->
  (exists rank : lanelet -> nat, forall d d', get_predecessor_dglane n d = Ok (Some d') -> (rank d' < rank d)%nat) ->
  (forall d d' lp lp', get_successor_dglane n d = Ok (Some d') -> on d = Ok lp -> on d' = Ok lp' -> lp_along_after lp = true -> lp_along_before lp' = false) ->
  (forall d d' lp lp', get_predecessor_dglane n d = Ok (Some d') -> on d = Ok lp -> on d' = Ok lp' -> lp_along_before lp = true -> lp_along_after lp' = false) ->
  exists fuel, desired_lane_reached n on fuel goal ff pos_tol heading_tol <> None.
Proof. exact C64_returns_partial_pf. Qed.
Print Assumptions C64_returns_partial.

(** The search need not return: two connected lanes and a position outside the corner,
    for every exact minimiser, every tolerance and heading. *)
Theorem C64_returns_refuted : exists n goal succ p, get_successor_dglane n goal = Ok (Some succ) /\ get_predecessor_dglane n succ = Ok (Some goal) /\
  t_p (cp_q (last goal (mkCP t_identity 0))) = t_p (cp_q (hd (mkCP t_identity 0) succ)) /\
  forall m, exact_minimizer m -> forall tol th ff pos_tol heading_tol fuel,
  desired_lane_reached n (fun d => lane_pose_from_SE2Transform m d (mkSE2T p th) tol) fuel goal ff pos_tol heading_tol = None.
Proof. exact C64_returns_refuted_pf. Qed.
Print Assumptions C64_returns_refuted.

(** A vehicle that is still before the goal lane, on its predecessor, counts as having
    reached the goal lane; the documentation promises the goal lane or a successor. *)
Theorem C64_predecessor_refuted : exists n goal p, forall m, exact_minimizer m -> forall tol,
  (exists lp, lane_pose_from_SE2Transform m goal (mkSE2T p 0) tol = Ok lp /\ lp_along_before lp = true /\ lp_along_lane lp = -50) /\
  desired_lane_reached n (fun d => lane_pose_from_SE2Transform m d (mkSE2T p 0) tol) 3 goal (Ok false) (8 / 10) (8 / 100) = Some (Ok true).
Proof. exact C64_predecessor_refuted_pf. Qed.
Print Assumptions C64_predecessor_refuted.

(** time_goal_lane_reached gives the first logged time at which the lane is reached. *)
Theorem C64_first_time : forall X reached (s : SeqModel.seq X),
  (forall t, time_goal_lane_reached reached s = Some (Ok (Some t)) <->
     exists i x, nth_error (iter s) i = Some (t, x) /\ reached x = Some (Ok true) /\ forall j t' x', (j < i)%nat -> nth_error (iter s) j = Some (t', x') -> reached x' = Some (Ok false)) /\
  (time_goal_lane_reached reached s = Some (Ok None) <-> forall t x, In (t, x) (iter s) -> reached x = Some (Ok false)).
Proof. exact C64_first_time_pf. Qed.
Print Assumptions C64_first_time.

Example C64_ex : forall m, exact_minimizer m -> forall tol,
  desired_lane_reached turn_net (fun d => lane_pose_from_SE2Transform m d (mkSE2T (4, 1 / 2) 0) tol) 1 turn_a (Ok false) (8 / 10) (8 / 100) = Some (Ok true) /\
  desired_lane_reached turn_net (fun d => lane_pose_from_SE2Transform m d (mkSE2T (4, 1) 0) tol) 1 turn_a (Ok false) (8 / 10) (8 / 100) = Some (Ok false).
Proof.
  intros m M tol.
  assert (A0 : angle_from_SE2 (SE2_from_translation_angle (0, 0) (0 - 0)) = 0).
  { unfold angle_from_SE2. cbn [SE2_from_translation_angle m00 m10]. replace (0 - 0) with 0 by ring. rewrite cos_0, sin_0. unfold atan2. destruct (Rlt_dec 0 1); [|lra]. replace (0 / 1) with 0 by field. apply atan_0. }
  assert (G : forall y, salong 10 (vdot (vsub (4, y) (0, 0)) (cos 0, sin 0)) = 4 /\ vcross (cos 0, sin 0) (vsub (4, y) (0, 0)) = y).
  { intro y. unfold vdot, vcross, vsub. cbn [fst snd]. rewrite cos_0, sin_0. split; [|ring]. unfold salong. destruct (Rlt_dec _ 0); [lra|]. destruct (Rlt_dec _ 10); lra. }
  split.
  - destruct (st_lane_pose (0, 0) 0 10 2 ltac:(lra) (4, 1 / 2) 0 m M tol) as (lp & E & _ & _ & D & LI & AI & _ & _ & H). destruct (G (1 / 2)) as [G1 G2]. rewrite G1 in AI. rewrite G2 in LI, D. rewrite A0 in H.
    assert (AI' : lp_along_inside lp = true) by (rewrite AI; apply andb_true_iff; split; [apply leb_iff; lra|apply ltb_iff; lra]).
    rewrite (C64_alongside_goal_lane turn_net _ 1 turn_a lp false (8 / 10) (8 / 100) E AI' (le_n 1)). rewrite LI, D, H. rewrite (Rabs_right (1 / 2)), Rabs_R0 by lra. do 2 f_equal. cbn [orb]. rewrite !andb_true_iff, !leb_iff, !ltb_iff. lra.
  - destruct (st_lane_pose (0, 0) 0 10 2 ltac:(lra) (4, 1) 0 m M tol) as (lp & E & _ & _ & D & LI & AI & _ & _ & H). destruct (G 1) as [G1 G2]. rewrite G1 in AI. rewrite G2 in LI, D. rewrite A0 in H.
    assert (AI' : lp_along_inside lp = true) by (rewrite AI; apply andb_true_iff; split; [apply leb_iff; lra|apply ltb_iff; lra]).
    rewrite (C64_alongside_goal_lane turn_net _ 1 turn_a lp false (8 / 10) (8 / 100) E AI' (le_n 1)). rewrite LI, D, H. rewrite (Rabs_right 1), Rabs_R0 by lra. rewrite (proj2 (ltb_false 1 (8 / 10))) by lra. cbn [orb]. rewrite andb_false_r. reflexivity.
Qed.

(** ** C65 *)

(** The prediction always returns.  If the footprints of the two coasting vehicles
    meet at some multiple of 0.1 s up to 3 s, the time to collision is the first such
    multiple, up to the rounding of the sum of the time steps, and the distances are
    what the vehicles cover in that time; otherwise all three are infinite. *)
Theorem C65_first_prediction : forall meet, translation_invariant meet ->
  forall fuel o1 o2 p1 th1 v1 p2 th2 v2, (31 <= fuel)%nat ->
  let at_step k := meet (footprint o1 (coast p1 th1 v1 (INR k / 10)) th1) (footprint o2 (coast p2 th2 v2 (INR k / 10)) th2) in
  (exists k t, (k <= 30)%nat /\ at_step k = true /\ (forall j, (j < k)%nat -> at_step j = false) /\ Rabs (t - INR k / 10) <= 2 / 10 ^ 15 /\
     get_ttc meet fuel o1 o2 p1 th1 v1 p2 th2 v2 = Some (Fn t, Fn (v1 * t), Fn (v2 * t))) \/
  ((forall k, (k <= 30)%nat -> at_step k = false) /\ get_ttc meet fuel o1 o2 p1 th1 v1 p2 th2 v2 = Some (PInf, PInf, PInf)).
Proof. exact C65_first_prediction_pf. Qed.
Print Assumptions C65_first_prediction.

(** A meeting between two multiples of 0.1 s is missed: a vehicle at 100 m/s drives
    through a standing one and the time to collision is infinite, for every test of
    polygons that is right about boxes. *)
Theorem C65_tunnelling_refuted : exists o1 p1 v1 o2 p2 t, 0 <= t <= 3 /\ forall meet, translation_invariant meet -> right_on_boxes meet ->
  meet (footprint o1 (coast p1 0 v1 t) 0) (footprint o2 (coast p2 0 0 t) 0) = true /\
  get_ttc meet 32 o1 o2 p1 0 v1 p2 0 0 = Some (PInf, PInf, PInf).
Proof. exact C65_tunnelling_refuted_pf. Qed.
Print Assumptions C65_tunnelling_refuted.

Example C65_ex : translation_invariant box_meet /\ right_on_boxes box_meet /\
  exists t, Rabs (t - 3 / 10) <= 2 / 10 ^ 15 /\ get_ttc box_meet 32 (car 2 1) (car 2 1) (0, 0) 0 10 (7, 0) 0 0 = Some (Fn t, Fn (10 * t), Fn (0 * t)).
Proof.
  split; [|split; [exact box_meet_right|]].
  - exact box_meet_translation.
  - pose proof (box_meet_car box_meet box_meet_right 2 1 2 1) as B.
    assert (ST : forall k, box_meet (footprint (car 2 1) (coast (0, 0) 0 10 (INR k / 10)) 0) (footprint (car 2 1) (coast (7, 0) 0 0 (INR k / 10)) 0) = true <-> Rabs (INR k - 7) <= 4).
    { intro k. rewrite B by lra. unfold coast. cbn [fst snd]. rewrite cos_0, sin_0. replace (0 + INR k / 10 * 10 * 1 - (7 + INR k / 10 * 0 * 1)) with (INR k - 7) by field. replace (0 + INR k / 10 * 10 * 0 - (0 + INR k / 10 * 0 * 0)) with 0 by field. rewrite Rabs_R0. lra. }
    destruct (C65_first_prediction box_meet box_meet_translation 32 (car 2 1) (car 2 1) (0, 0) 0 10 (7, 0) 0 0 ltac:(lia)) as [(k & t & K & H & N & C & E)|[N _]].
    + assert (k = 3%nat) as ->; [|exists t; split; [replace (3 / 10) with (INR 3 / 10) by (cbn [INR]; field); exact C|exact E]].
      apply ST in H. assert (L : ~ (k < 3)%nat). { intro L. do 3 (destruct k as [|k]; [cbn [INR] in H; rewrite Rabs_left in H by lra; lra|]). lia. }
      destruct (Nat.eq_dec k 3) as [|Ne]; [assumption|]. exfalso. specialize (N 3%nat ltac:(lia)). cbv beta in N. rewrite (proj2 (ST 3%nat)) in N; [discriminate|]. cbn [INR]. rewrite Rabs_left by lra. lra.
    + exfalso. specialize (N 3%nat ltac:(lia)). cbv beta in N. rewrite (proj2 (ST 3%nat)) in N; [discriminate|]. cbn [INR]. rewrite Rabs_left by lra. lra.
Qed.

(** ** C66 *)

(** The minimum distance is the least distance between the ego and another player over
    all log times in the window and all players that have not reached their goal, and
    it is attained by the returned player at the returned time; it is infinite if there
    is no such pair. *)
Theorem C66_minimum : forall St Md Gl (logs_at : Qc -> result (list (string * St))) (missions : list (string * Gl)) (models : list (string * Md)) is_fulfilled pos psi outline pdist ego ts r d who w,
  dict missions -> dict models -> (forall t l, logs_at t = Ok l -> dict l) -> StronglySorted Qclt ts ->
  let apart := apart logs_at missions models is_fulfilled pos psi outline pdist ego in
  get_min_dist logs_at missions models is_fulfilled pos psi outline pdist ego ts r = Ok (d, who, w) ->
  (forall t name x, In t ts -> in_range r t -> apart t name x -> ext_le d (Fn x)) /\
  ((d = PInf /\ who = None /\ w = None /\ forall t name x, In t ts -> in_range r t -> ~ apart t name x) \/
   (exists t name x, In t ts /\ in_range r t /\ apart t name x /\ d = Fn x /\ who = Some name /\ w = Some t)).
Proof. exact C66_minimum_pf. Qed.
Print Assumptions C66_minimum.

(** The same for one time. *)
Theorem C66_minimum_at_time : forall St Md Gl (logs_at : Qc -> result (list (string * St))) (missions : list (string * Gl)) (models : list (string * Md)) is_fulfilled pos psi outline pdist ego t d who,
  dict missions -> dict models -> (forall t l, logs_at t = Ok l -> dict l) ->
  let apart := apart logs_at missions models is_fulfilled pos psi outline pdist ego in
  get_min_dist_at_t logs_at missions models is_fulfilled pos psi outline pdist ego t = Ok (d, who) ->
  (forall name x, apart t name x -> ext_le d (Fn x)) /\
  ((d = PInf /\ who = None /\ forall name x, ~ apart t name x) \/ (exists name x, apart t name x /\ d = Fn x /\ who = Some name)).
Proof. exact C66_minimum_at_time_pf. Qed.
Print Assumptions C66_minimum_at_time.

(** It is defined if every logged player has a goal and a model. *)
Theorem C66_defined : forall St Md Gl (logs_at : Qc -> result (list (string * St))) (missions : list (string * Gl)) (models : list (string * Md)) is_fulfilled pos psi outline pdist ego ts r,
  (forall t, In t ts -> in_range r t -> exists l, logs_at t = Ok l /\ forall name x, In (name, x) l -> In name (map fst missions) /\ In name (map fst models)) ->
  (forall g x, exists b, is_fulfilled g x = Ok b) ->
  exists res, get_min_dist logs_at missions models is_fulfilled pos psi outline pdist ego ts r = Ok res.
Proof. exact C66_defined_pf. Qed.
Print Assumptions C66_defined.

(** A single logged player without a goal makes the metric raise KeyError, although goals
    are optional in a simulation. *)
Theorem C66_player_without_goal_refuted : forall St Md Gl (logs_at : Qc -> result (list (string * St))) (missions : list (string * Gl)) (models : list (string * Md)) is_fulfilled pos psi outline pdist ego t ts r l name x,
  in_range r t -> logs_at t = Ok l -> In (name, x) l -> ~ In name (map fst missions) ->
  forall res, get_min_dist logs_at missions models is_fulfilled pos psi outline pdist ego (t :: ts) r <> Ok res.
Proof. exact C66_player_without_goal_refuted_pf. Qed.
Print Assumptions C66_player_without_goal_refuted.

Example C66_ex : get_min_dist ex_log [("Ego", false); ("A", true); ("B", false)]%string [("Ego", car 2 1); ("A", car 2 1); ("B", car 2 1)]%string (fun (g : bool) (_ : R) => Ok g) (fun x => (x, 0)) (fun _ => 0) (fun o => o)
    (fun p q => fst (nth 2 q (0, 0)) - fst (nth 0 p (0, 0))) "Ego"%string [qz 0; qz 1] (None, None) = Ok (Fn 5, Some "B"%string, Some (qz 0)).
Proof.
  set (pd := fun p q : polygon => fst (nth 2 q (0, 0)) - fst (nth 0 p (0, 0))).
  assert (E : get_dist (fun x => (x, 0)) (fun _ : R => 0) (fun o : polygon => o) pd 0 9 (car 2 1) (car 2 1) = 5).
  { unfold pd, get_dist, car, SE2_apply_T2, SE2_from_translation_angle. cbn [map nth m00 m01 m02 m10 m11 m12 fst snd]. rewrite cos_0, sin_0. ring. }
  clearbody pd. cbv [get_min_dist min_dist_times get_min_dist_at_t remove_finished_players agetE aget String.eqb Ascii.eqb Bool.eqb LaneModel.bind min_dist_loop fst snd ext_ltb ex_log too_early too_late]. fold (car 2 1). rewrite !E. rewrite (proj2 (ltb_false 5 5)) by lra. reflexivity.
Qed.

(** ** C87 *)

(** A collision of the ego is reported exactly when some report involves it. *)
Theorem C87_has_collision : forall cr_list, has_collision cr_list = true <-> exists players, In players cr_list /\ In "Ego"%string players.
Proof. exact C87_has_collision_pf. Qed.
Print Assumptions C87_has_collision.

(** The minimum time to collision and the maximum required deceleration are the minimum
    and the maximum over all log times in the window and all players that have not
    reached their goal and close in on the ego, and they are attained by the returned
    players at the returned times. *)
Theorem C87_min_ttc_max_drac : forall St Md Gl (logs_at : Qc -> result (list (string * St))) (missions : list (string * Gl)) (models : list (string * Md)) is_fulfilled pos vx psi outline meet ego ts r d dw dt a aw at',
  translation_invariant meet -> dict missions -> dict models -> (forall t l, logs_at t = Ok l -> dict l) -> StronglySorted Qclt ts ->
  let rated := rated logs_at missions models is_fulfilled pos vx psi outline meet ego in
  get_min_ttc_max_drac logs_at missions models is_fulfilled pos vx psi outline meet ego ts r = Ok ((d, dw, dt), (a, aw, at')) ->
  (forall t name v ttc dtc, In t ts -> in_range r t -> rated t name v ttc dtc -> ext_le d ttc /\ forall x, needed v dtc x -> ext_le x a) /\
  ((d = PInf /\ dw = None /\ dt = None) \/
   (exists t name v ttc dtc, In t ts /\ in_range r t /\ rated t name v ttc dtc /\ d = ttc /\ d <> PInf /\ dw = Some name /\ dt = Some t)) /\
  ((a = NInf /\ aw = None /\ at' = None /\ forall t name v ttc dtc, In t ts -> in_range r t -> ~ rated t name v ttc dtc) \/
   (exists t name v ttc dtc, In t ts /\ in_range r t /\ rated t name v ttc dtc /\ needed v dtc a /\ aw = Some name /\ at' = Some t)).
Proof. exact C87_min_ttc_max_drac_pf. Qed.
Print Assumptions C87_min_ttc_max_drac.

(** What the ratings say: with contact predicted after the time [t], the required
    deceleration of an ego with positive speed is half its speed over that time; an ego
    that stands or reverses is rated infinite. *)
Theorem C87_drac_value : forall St Md Gl (logs_at : Qc -> result (list (string * St))) (missions : list (string * Gl)) (models : list (string * Md)) is_fulfilled pos vx psi outline meet ego t name v ttc dtc a,
  translation_invariant meet -> rated logs_at missions models is_fulfilled pos vx psi outline meet ego t name v (Fn ttc) dtc -> needed v dtc a ->
  (0 < v -> 0 < ttc -> a = Fn (v / (2 * ttc))) /\ (v <= 0 -> 0 <= ttc -> a = PInf).
Proof. exact C87_drac_value_pf. Qed.
Print Assumptions C87_drac_value.

(** Contact is predicted within 0.2 s, and still no time to collision is reported,
    because the distance of the centres grows: for every polygon test that is right about
    boxes. *)
Theorem C87_missed_contact_refuted : exists logs_at (missions : list (string * unit)) models is_fulfilled, forall meet, translation_invariant meet -> right_on_boxes meet ->
  let pos := fun x : vec * R * R => fst (fst x) in let vx := fun x : vec * R * R => snd (fst x) in let psi := fun x : vec * R * R => snd x in
  (exists xe x me m, logs_at 0%Qc = Ok [("Ego", xe); ("Truck", x)]%string /\ models = [("Ego", me); ("Truck", m)]%string /\
    meet (footprint me (pos xe) (psi xe)) (footprint m (pos x) (psi x)) = false /\
    meet (footprint me (coast (pos xe) (psi xe) (vx xe) (2 / 10)) (psi xe)) (footprint m (coast (pos x) (psi x) (vx x) (2 / 10)) (psi x)) = true) /\
  get_min_ttc_max_drac logs_at missions models is_fulfilled pos vx psi (fun o : polygon => o) meet "Ego"%string [0%Qc] (None, None) = Ok ((PInf, None, None), (NInf, None, None)).
Proof. exact C87_missed_contact_refuted_pf. Qed.
Print Assumptions C87_missed_contact_refuted.

Example C87_ex : has_collision [["A"; "B"]; ["C"; "Ego"]]%string = true /\ has_collision [["A"; "B"]; []]%string = false.
Proof. split; reflexivity. Qed.

(** ** C85 *)

(** Restricting the metric to a window is the metric of the subsequence. *)
Theorem C85_window : forall U (acc : U -> R) (s s' : SeqModel.seq U) a b x, obtainable s -> get_subsequence s a b = Ok s' ->
  (get_acc_rms acc s (Some a, Some b) = Ok x <-> get_acc_rms acc s' (None, None) = Ok x).
Proof. exact C85_window_pf. Qed.
Print Assumptions C85_window.

(** It is defined for two or more samples. *)
Theorem C85_defined : forall U (acc : U -> R) (s : SeqModel.seq U), obtainable s ->
  ((exists x, get_acc_rms acc s (None, None) = Ok x) <-> (2 <= length (vals s))%nat).
Proof. exact C85_defined_pf. Qed.
Print Assumptions C85_defined.

(** It scales with the accelerations. *)
Theorem C85_homogeneous : forall U (acc : U -> R) c (s : SeqModel.seq U) r x, get_acc_rms acc s r = Ok x -> get_acc_rms (fun u => c * acc u) s r = Ok (Rabs c * x).
Proof. exact C85_homogeneous_pf. Qed.
Print Assumptions C85_homogeneous.

(** An oscillation with [k] periods in an even number [n] of samples, taken every 0.1 s, is
    weighted with the weight of its frequency [10 k / n], whatever its phase. *)
Theorem C85_oscillation : forall U (acc : U -> R) (s : SeqModel.seq U) A p k h, obtainable s -> (0 < k < h)%nat ->
  map acc (vals s) = map (fun j => A * cos (2 * PI * INR j * INR k / INR (2 * h) + p)) (List.seq 0 (2 * h)) ->
  get_acc_rms acc s (None, None) = Ok (Rabs A * weight (10 * INR k / INR (2 * h)) / sqrt 2).
Proof. exact C85_oscillation_pf. Qed.
Print Assumptions C85_oscillation.

(** A constant acceleration is weighted with the weight of frequency zero if the number
    of samples is even. *)
Theorem C85_constant_even : forall U (acc : U -> R) (s : SeqModel.seq U) a h, obtainable s -> map acc (vals s) = repeat a (2 * h) -> (0 < h)%nat ->
  get_acc_rms acc s (None, None) = Ok (Rabs a * weight 0).
Proof. exact C85_constant_even_pf. Qed.
Print Assumptions C85_constant_even.

(** For an odd number of samples it is not: the result is too large by a factor, because
    the inverse transform returns one sample less than was transformed; one more sample
    of the same acceleration changes the metric. *)
Theorem C85_constant_odd_refuted : forall U (acc : U -> R) (s : SeqModel.seq U) a h, obtainable s -> map acc (vals s) = repeat a (2 * h + 1) -> (0 < h)%nat -> a <> 0 ->
  get_acc_rms acc s (None, None) = Ok (Rabs a * weight 0 * INR (2 * h + 1) / INR (2 * h)) /\ Rabs a * weight 0 < Rabs a * weight 0 * INR (2 * h + 1) / INR (2 * h).
Proof. exact C85_constant_odd_refuted_pf. Qed.
Print Assumptions C85_constant_odd_refuted.

(** The timestamps play no role: the samples are taken to be 0.1 s apart. *)
Theorem C85_timestamps_ignored_refuted : forall U (acc : U -> R) (s s' : SeqModel.seq U), obtainable s -> obtainable s' -> vals s = vals s' -> get_acc_rms acc s (None, None) = get_acc_rms acc s' (None, None).
Proof. exact C85_timestamps_ignored_refuted_pf. Qed.
Print Assumptions C85_timestamps_ignored_refuted.

(** The weights lie between zero and 0.6: the metric never amplifies a frequency. *)
Theorem C85_weight_range : forall f, 0 <= f -> acc_freq_filter f = weight f /\ 0 < weight f < 6 / 10.
Proof. exact C85_weight_range_pf. Qed.
Print Assumptions C85_weight_range.

Example C85_ex : let s := mkSeq [qz 0; qz 1; qz 2; qz 3] [3; 3; 3; 3] true in
  get_acc_rms (fun x => x) s (None, None) = Ok (3 * weight 0) /\ weight 0 = 7725 / 47610.
Proof.
  cbv zeta. split; [|unfold weight; field]. rewrite (C85_constant_even R (fun x => x) _ 3 2); [rewrite Rabs_right by lra; reflexivity|apply (ob_new _ true [qz 0; qz 1; qz 2; qz 3] [3; 3; 3; 3]); reflexivity|reflexivity|lia].
Qed.

Example C85_ex_oscillation : let s := mkSeq [qz 0; qz 1; qz 2; qz 3] [2; 0; -2; 0] true in
  get_acc_rms (fun x => x) s (None, None) = Ok (2 * weight (10 / 4) / sqrt 2).
Proof.
  cbv zeta. rewrite (C85_oscillation R (fun x => x) _ 2 0 1 2).
  - rewrite Rabs_right by lra. do 3 f_equal. f_equal. cbn [INR Nat.mul Nat.add]. field.
  - apply (ob_new _ true [qz 0; qz 1; qz 2; qz 3] [2; 0; -2; 0]). reflexivity.
  - lia.
  - cbn [map vals List.seq Nat.mul Nat.add INR]. replace (2 * PI * 0 * 1 / (1 + 1 + 1 + 1) + 0) with 0 by field. replace (2 * PI * 1 * 1 / (1 + 1 + 1 + 1) + 0) with (PI / 2) by field. replace (2 * PI * (1 + 1) * 1 / (1 + 1 + 1 + 1) + 0) with PI by field. replace (2 * PI * (1 + 1 + 1) * 1 / (1 + 1 + 1 + 1) + 0) with (3 * (PI / 2)) by field.
    rewrite cos_0, cos_PI2, cos_PI, cos_3PI2. repeat (f_equal; try ring).
Qed.
