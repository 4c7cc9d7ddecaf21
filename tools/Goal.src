(** Properties of goals. *)
From Coq Require Import String Reals Lra Psatz List Bool ZArith Lia Arith ClassicalEpsilon.
From Verif Require Import Base R2 GeoModel GeoSpec GeoProofs GeoMain LaneModel LaneSpec LaneProofs LaneMain DataModel DataSpec EvalModel EvalSpec GoalModel GoalSpec GoalProofs.
Import ListNotations.
Open Scope R_scope.
(* BODY *)

(** ** C86 *)

(** A pose goal is fulfilled exactly when the squared distance of the positions plus
    4 (1 - cos) of the difference of the headings is at most the squared tolerance. *)
Theorem C86_pose_goal : forall polygon (buffer : vec -> vec -> R -> polygon) contains m gp tol st p th t, state_at st p th ->
  (is_fulfilled buffer contains m (PoseGoal gp tol) st t = Ok true <-> 0 <= tol /\ vdist p (t_p gp) ^ 2 + 4 * (1 - cos (th - t_theta gp)) <= tol ^ 2) /\
  (is_fulfilled buffer contains m (PoseGoal gp tol) st t = Ok false <-> tol < 0 \/ tol ^ 2 < vdist p (t_p gp) ^ 2 + 4 * (1 - cos (th - t_theta gp))).
Proof.
  intros polygon buffer contains m gp tol st p th t S. unfold is_fulfilled. rewrite (pose_of_state _ _ _ S). cbn [LaneModel.bind].
  assert (F : frobenius (SE2_from_translation_angle p th) (as_SE2 gp) = sqrt (vdist p (t_p gp) ^ 2 + 4 * (1 - cos (th - t_theta gp)))).
  { unfold frobenius. f_equal. unfold vdist. replace (vnorm (vsub p (t_p gp)) ^ 2) with (vnorm (vsub p (t_p gp)) * vnorm (vsub p (t_p gp))) by ring. rewrite vnorm_sq. rewrite cos_minus.
    unfold as_SE2, SE2_from_translation_angle, vdot, vsub. cbn [m00 m01 m02 m10 m11 m12 fst snd]. pose proof (sin2_cos2 th) as T. pose proof (sin2_cos2 (t_theta gp)) as T2. unfold Rsqr in T, T2. set (a := cos th) in *. set (b := sin th) in *. set (a' := cos (t_theta gp)) in *. set (b' := sin (t_theta gp)) in *. nra. }
  rewrite F. set (e := vdist p (t_p gp) ^ 2 + 4 * (1 - cos (th - t_theta gp))) in *. assert (P : 0 <= e) by (unfold e; pose proof (pow2_ge_0 (vdist p (t_p gp))); pose proof (COS_bound (th - t_theta gp)); lra).
  assert (X : sqrt e <= tol <-> 0 <= tol /\ e <= tol ^ 2).
  { pose proof (sqrt_pos e). pose proof (sqrt_sqrt e P). split; [intro; split; [lra|nra]|]. intros [Q L]. apply Rsqr_incr_0_var; [unfold Rsqr; lra|exact Q]. }
  destruct (leb (sqrt e) tol) eqn:E; [apply leb_iff in E|apply leb_false in E]; split.
  - split; [intros _; apply X; exact E|reflexivity].
  - split; [discriminate|]. apply X in E. lra.
  - split; [discriminate|]. intro H. apply X in H. lra.
  - split; [intros _|reflexivity]. destruct (Rlt_dec tol 0) as [L|L]; [left; exact L|right]. destruct (Rlt_dec (tol ^ 2) e) as [L2|L2]; [exact L2|]. exfalso. assert (sqrt e <= tol) by (apply X; lra). lra.
Qed.

(** So the position is within the tolerance, and turning by full turns does not matter. *)
Theorem C86_pose_goal_tolerance : forall polygon (buffer : vec -> vec -> R -> polygon) contains m gp tol st p th t, state_at st p th ->
  (is_fulfilled buffer contains m (PoseGoal gp tol) st t = Ok true -> vdist p (t_p gp) <= tol) /\
  (0 <= tol -> p = t_p gp -> same_angle th (t_theta gp) -> is_fulfilled buffer contains m (PoseGoal gp tol) st t = Ok true).
Proof.
  intros polygon buffer contains m gp tol st p th t S. destruct (C86_pose_goal_pf polygon buffer contains m gp tol st p th t S) as [H _]. split.
  - intro E. apply H in E as [Q L]. pose proof (COS_bound (th - t_theta gp)). apply Rsqr_incr_0_var; [unfold Rsqr|exact Q]. lra.
  - intros Q -> [C Z]. apply H. split; [exact Q|]. rewrite (proj2 (vdist_zero _ _) eq_refl), cos_minus, C, Z. pose proof (sin2_cos2 (t_theta gp)) as T. unfold Rsqr in T. pose proof (pow2_ge_0 tol). nra.
Qed.

(** The other goals depend on the position only, and no goal depends on the time. *)
Theorem C86_position_only : forall polygon (buffer : vec -> vec -> R -> polygon) contains m g st st' p th th' t t', state_at st p th -> state_at st' p th' ->
  (forall gp tol, g = PoseGoal gp tol -> th = th') ->
  is_fulfilled buffer contains m g st t = is_fulfilled buffer contains m g st' t'.
Proof.
  intros polygon buffer contains m g st st' p th th' t t' S S' G. unfold is_fulfilled. rewrite (pose_of_state _ _ _ S), (pose_of_state _ _ _ S'). cbn [LaneModel.bind]. rewrite !tr_angle. destruct g as [lane pr|poly|gp tol].
  - destruct (goal_polygon buffer lane pr) as [poly|e]; [cbn [LaneModel.bind]|reflexivity]. destruct (contains poly p); [|reflexivity].
    assert (E : (exists e, lane_pose_from_SE2_generic m lane (SE2_from_translation_angle p th) (1 / 1000) = Err e /\ lane_pose_from_SE2_generic m lane (SE2_from_translation_angle p th') (1 / 1000) = Err e) \/
      (exists l l', lane_pose_from_SE2_generic m lane (SE2_from_translation_angle p th) (1 / 1000) = Ok l /\ lane_pose_from_SE2_generic m lane (SE2_from_translation_angle p th') (1 / 1000) = Ok l' /\ lp_along_lane l = lp_along_lane l')).
    { unfold lane_pose_from_SE2_generic. rewrite !tr_angle. destruct (find_along_lane_closest_point m lane p (1 / 1000) None) as [[b q]|e] eqn:F; cbn [LaneModel.bind fst snd]; [|left; eauto].
      destruct (along_lane_from_beta lane b) as [al|e]; cbn [LaneModel.bind]; [|left; eauto].
      assert (NE : lane <> []) by (intros ->; discriminate F). assert (Q : is_se2 q).
      { unfold find_along_lane_closest_point in F. destruct (item lane 0); [cbn [LaneModel.bind] in F|discriminate]. match type of F with LaneModel.bind (center_point _ ?b0) _ = _ => destruct (cp_defined lane b0 NE) as (q' & _ & _ & E1 & _ & _ & I) end. rewrite E1 in F. cbn [LaneModel.bind] in F. injection F as _ <-. exact I. }
      destruct (C60_relative_pose_pf q (SE2_from_translation_angle p th) Q) as (r1 & -> & _). destruct (C60_relative_pose_pf q (SE2_from_translation_angle p th') Q) as (r2 & -> & _). cbn [LaneModel.bind].
      unfold lane_pose. destruct (beta_from_along_lane lane al) as [b'|e]; cbn [LaneModel.bind]; [|left; eauto]. destruct (center_point lane b') as [c|e]; cbn [LaneModel.bind]; [|left; eauto]. destruct (radius lane b') as [r|e]; cbn [LaneModel.bind]; [|left; eauto]. right. do 2 eexists. split; [reflexivity|]. split; reflexivity. }
    destruct E as [(e & -> & ->)|(l & l' & -> & -> & E)]; [reflexivity|]. cbn [LaneModel.bind]. rewrite E. reflexivity.
  - reflexivity.
  - rewrite (G gp tol eq_refl). reflexivity.
Qed.

(** A state without position or heading is an error. *)
Theorem C86_no_pose : forall polygon (buffer : vec -> vec -> R -> polygon) contains m g st t f, In f ["x"; "y"]%string -> getattr st f = Err PyAttributeError ->
  (forall k v, getattr st k = Ok v -> is_num v) ->
  is_fulfilled buffer contains m g st t = Err ZValueError.
Proof.
  intros polygon buffer contains m g st t f I H NUM. assert (P : pose_of st = Err ZValueError).
  { unfold pose_of, extract_pose_from_state. assert (A : forall k, getnum st k = Err PyAttributeError \/ exists x, getnum st k = Ok x).
    { intro k. unfold getnum. destruct (getattr st k) as [v|e] eqn:E; [destruct (NUM k v E) as (r & ->); cbn; eauto|]. left. unfold getattr in E. destruct (aget _ _ _); [discriminate|]. injection E as <-. reflexivity. }
    assert (B : getnum st f = Err PyAttributeError) by (unfold getnum; rewrite H; reflexivity).
    destruct I as [<-|[<-|[]]].
    - rewrite B. reflexivity.
    - destruct (A "x"%string) as [->|(x & ->)]; [reflexivity|]. cbn [DataModel.bind]. rewrite B. reflexivity. }
  destruct g; unfold is_fulfilled; rewrite P; reflexivity.
Qed.

(** The goal at the end of a lane: a strip across the lane, 0.1 m beyond its last control
    point.  [s] and [lat] are measured from the last control point. *)
Theorem C86_lane_end : forall polygon rho (buffer : vec -> vec -> R -> polygon) contains m lane c r, right_buffer rho buffer contains ->
  nth_error lane (length lane - 1) = Some c -> 0 <= cp_r c -> 0 < r ->
  exists g, from_DgLanelet buffer lane r = Ok g /\ forall st s lat th t, state_at st (ahead_left (t_p (cp_q c)) (t_theta (cp_q c)) s lat) th ->
    (is_fulfilled buffer contains m g st t = Ok true -> Rabs (s - 1 / 10) <= r /\ Rabs lat <= cp_r c + r) /\
    (Rabs (s - 1 / 10) < rho * r -> Rabs lat <= cp_r c -> is_fulfilled buffer contains m g st t = Ok true).
Proof.
  intros polygon rho buffer contains m lane c r [_ B] C W R. unfold from_DgLanelet, polygon_at_along_lane.
  destruct (cp_after lane c (INR (length lane)) C) as (E1 & E2 & _); [unfold last_beta; lra|]. rewrite E1, E2. cbn [LaneModel.bind]. eexists. split; [reflexivity|]. intros st s lat th t S. unfold is_fulfilled. rewrite (pose_of_state _ _ _ S). cbn [LaneModel.bind]. rewrite tr_angle, interp_ahead.
  set (p0 := t_p (cp_q c)) in *. set (h := t_theta (cp_q c)) in *.
  replace (vadd p0 (vscale ((INR (length lane) - last_beta lane) / 10) (cos h, sin h))) with (ahead_left p0 h (1 / 10) 0) by (unfold last_beta, ahead_left, vadd, vscale; cbn [fst snd]; f_equal; field).
  rewrite !ahead_left_apply, !ahead_left_add. replace (1 / 10 + 0) with (1 / 10) by ring. rewrite !Rplus_0_l.
  destruct (B (ahead_left p0 h (1 / 10) (cp_r c)) (ahead_left p0 h (1 / 10) (- cp_r c)) r (ahead_left p0 h s lat) R) as [B1 B2]. split.
  - intros [= E]. exact (within_across p0 h (1 / 10) (cp_r c) r s lat W (B1 E)).
  - intros X Y. f_equal. apply B2. apply across_within; assumption.
Qed.

(** With an inflation radius under 0.1 m the end of the lane is not in its own goal. *)
Theorem C86_lane_end_refuted : forall polygon rho (buffer : vec -> vec -> R -> polygon) contains m lane c r, right_buffer rho buffer contains ->
  nth_error lane (length lane - 1) = Some c -> 0 <= cp_r c -> 0 < r < 1 / 10 ->
  exists g, from_DgLanelet buffer lane r = Ok g /\ forall st th t, state_at st (t_p (cp_q c)) th -> is_fulfilled buffer contains m g st t = Ok false.
Proof.
  intros polygon rho buffer contains m lane c r B C W R. destruct (C86_lane_end_pf polygon rho buffer contains m lane c r B C W ltac:(lra)) as (g & E & H). exists g. split; [exact E|]. intros st th t S.
  rewrite <- (ahead_left_0 (t_p (cp_q c)) (t_theta (cp_q c))) in S. destruct (H st 0 0 th t S) as [H1 _]. unfold from_DgLanelet in E. destruct (polygon_at_along_lane buffer lane None r) as [pl|]; [|discriminate]. cbn [LaneModel.bind] in E. injection E as <-.
  unfold is_fulfilled in *. rewrite (pose_of_state _ _ _ S) in *. cbn [LaneModel.bind] in *. destruct (contains pl _); [exfalso|reflexivity]. destruct (H1 eq_refl) as [H2 _]. apply abs_bounds in H2. lra.
Qed.

(** The lane goal on a straight lane whose control points are [d] metres apart, with an
    exact closest point: [s] metres along and [lat] metres beside the centre line. *)
Definition strip (d : R) (n : nat) (g : R) : R := if Rlt_dec g (INR n) then g * d else INR n * d + (g - INR n) / 10.

Lemma ref_lane polygon rho (buffer : vec -> vec -> R -> polygon) contains m p th d n w g st s lat h t : right_buffer rho buffer contains -> exact_minimizer m ->
  0 < d -> (1 <= n)%nat -> 0 <= w -> 0 <= g -> state_at st (ahead_left p th s lat) h ->
  (is_fulfilled buffer contains m (RefLaneGoal (even_lane p th d n w) g) st t = Ok true /\ Rabs (s - strip d n g) <= 1 /\ Rabs lat <= w + 1 /\ g <= eprog d n s) \/
  (is_fulfilled buffer contains m (RefLaneGoal (even_lane p th d n w) g) st t = Ok false /\ (Rabs (s - strip d n g) < rho -> Rabs lat <= w -> eprog d n s < g)).
Proof.
  intros [_ B] M D N W G S. unfold is_fulfilled, goal_polygon, polygon_at_along_lane. rewrite (pose_of_state _ _ _ S). cbn [LaneModel.bind]. rewrite tr_angle, (ev_center p th d n w N), (ev_radius p th d n w N). cbn [LaneModel.bind].
  rewrite !ahead_left_apply, !ahead_left_add. rewrite !Rplus_0_l, !Rplus_0_r. replace (earc d n g) with (strip d n g) by (unfold strip, earc; destruct (Rlt_dec g 0); [lra|reflexivity]).
  destruct (B (ahead_left p th (strip d n g) w) (ahead_left p th (strip d n g) (- w)) 1 (ahead_left p th s lat) ltac:(lra)) as [B1 B2].
  destruct (contains _ _) eqn:C.
  - destruct (ev_lane_pose p th d n w D N m M s lat h (1 / 1000)) as (lp & E & A). rewrite E. cbn [LaneModel.bind]. rewrite A. destruct (leb g (eprog d n s)) eqn:L.
    + left. split; [reflexivity|]. destruct (within_across p th (strip d n g) w 1 s lat W (B1 eq_refl)) as [X Y]. apply leb_iff in L. auto.
    + right. split; [reflexivity|]. intros _ _. apply leb_false. exact L.
  - right. split; [reflexivity|]. intros X Y. assert (K : false = true) by (apply B2; apply across_within; [lra|exact Y]). discriminate K.
Qed.

(** A lane goal is never fulfilled before its progress. *)
Theorem C86_not_before : forall polygon rho (buffer : vec -> vec -> R -> polygon) contains m p th d n w g st s lat h t, right_buffer rho buffer contains -> exact_minimizer m ->
  0 < d -> (1 <= n)%nat -> 0 <= w -> 0 <= g <= INR n * d -> state_at st (ahead_left p th s lat) h -> s < g ->
  is_fulfilled buffer contains m (RefLaneGoal (even_lane p th d n w) g) st t = Ok false.
Proof.
  intros polygon rho buffer contains m p th d n w g st s lat h t B M D N W G S L. destruct (ref_lane polygon rho buffer contains m p th d n w g st s lat h t B M D N W (proj1 G) S) as [(_ & _ & _ & P)|(E & _)]; [exfalso|exact E].
  unfold eprog in P. destruct (Rlt_dec s 0); [lra|]. destruct (Rlt_dec s (INR n * d)); lra.
Qed.

(** With control points one metre apart, a lane goal is fulfilled from its progress on,
    over nearly a metre, across the width of the lane.
    Missing: other spacings (refuted below), bends. *)
Theorem C86_ref_lane_partial : forall polygon rho (buffer : vec -> vec -> R -> polygon) contains m p th n w g st s lat h t, right_buffer rho buffer contains -> exact_minimizer m ->
  (1 <= n)%nat -> 0 <= w -> 0 <= g <= INR n -> state_at st (ahead_left p th s lat) h ->
  (g <= s < g + rho -> Rabs lat <= w -> is_fulfilled buffer contains m (RefLaneGoal (even_lane p th 1 n w) g) st t = Ok true) /\
  (s < g \/ g + 1 < s \/ w + 1 < Rabs lat -> is_fulfilled buffer contains m (RefLaneGoal (even_lane p th 1 n w) g) st t = Ok false).
Proof.
  intros polygon rho buffer contains m p th n w g st s lat h t B M N W G S. pose proof (ref_lane polygon rho buffer contains m p th 1 n w g st s lat h t B M ltac:(lra) N W (proj1 G) S) as H.
  assert (T : strip 1 n g = g) by (unfold strip; destruct (Rlt_dec g (INR n)); lra). rewrite T in H. split.
  - intros A L. destruct H as [(E & _)|(E & F)]; [exact E|exfalso]. assert (X : Rabs (s - g) < rho) by (rewrite Rabs_pos_eq; lra). specialize (F X L). unfold eprog in F. rewrite Rmult_1_r in F. destruct (Rlt_dec s 0); [lra|]. destruct (Rlt_dec s (INR n)); lra.
  - intros A. destruct H as [(_ & X & Y & P)|(E & _)]; [exfalso|exact E]. apply abs_bounds in X. unfold eprog in P. rewrite Rmult_1_r in P. destruct A as [A|[A|A]]; try lra. destruct (Rlt_dec s 0); [lra|]. destruct (Rlt_dec s (INR n)); lra.
Qed.

(** With few control points the progress, which is in metres, is used as a number of
    control points: no position on the lane fulfils the goal. *)
Theorem C86_ref_lane_refuted : forall polygon rho (buffer : vec -> vec -> R -> polygon) contains m p th d n w g st s lat h t, right_buffer rho buffer contains -> exact_minimizer m ->
  0 < d -> (1 <= n)%nat -> 0 <= w -> INR n + 10 < g < INR n * d -> state_at st (ahead_left p th s lat) h -> s <= INR n * d ->
  is_fulfilled buffer contains m (RefLaneGoal (even_lane p th d n w) g) st t = Ok false.
Proof.
  intros polygon rho buffer contains m p th d n w g st s lat h t B M D N W G S L. pose proof (pos_INR n). destruct (ref_lane polygon rho buffer contains m p th d n w g st s lat h t B M D N W ltac:(lra) S) as [(_ & X & _)|(E & _)]; [exfalso|exact E].
  unfold strip in X. destruct (Rlt_dec g (INR n)); [lra|]. apply abs_bounds in X. lra.
Qed.

(** The goals say that they are static, and they are: when is asked makes no difference, not to
    whether a state fulfils the goal and not to where it is drawn. *)
Theorem C86_static : forall polygon (buffer : vec -> vec -> R -> polygon) contains m g,
  is_static g = true <-> forall t t', (forall st, is_fulfilled buffer contains m g st t = is_fulfilled buffer contains m g st t') /\ get_plottable_geometry buffer g t = get_plottable_geometry buffer g t'.
Proof. intros polygon buffer contains m g. split; [intros _ t t'; destruct g; split; intros; reflexivity|intros _; reflexivity]. Qed.

(** Only pose goals cannot be drawn. *)
Theorem C86_plot_refuted : forall polygon (buffer : vec -> vec -> R -> polygon) gp tol t, get_plottable_geometry buffer (PoseGoal gp tol) t = Err PyTypeError.
Proof. reflexivity. Qed.

Theorem C86_plot_partial : forall polygon (buffer : vec -> vec -> R -> polygon) t, (forall poly, get_plottable_geometry buffer (PolygonGoal poly) t = Ok poly) /\
  forall lane g, lane <> [] -> exists a b, get_plottable_geometry buffer (RefLaneGoal lane g) t = Ok (buffer a b 1) /\
    exists q r, center_point lane g = Ok q /\ radius lane g = Ok r /\ vdist a b = 2 * Rabs r /\ vscale (1 / 2) (vadd a b) = translation_from_SE2 q.
Proof.
  intros polygon buffer t. split; [reflexivity|]. intros lane g NE. destruct (cp_defined lane g NE) as (q & r & _ & E1 & E2 & _ & I). rewrite <- (as_from q I) in E1. generalize dependent (angle_from_SE2 q). generalize (translation_from_SE2 q). intros p th E1. unfold get_plottable_geometry, goal_polygon, polygon_at_along_lane. rewrite E1, E2. cbn [LaneModel.bind]. do 2 eexists. split; [reflexivity|]. exists (SE2_from_translation_angle p th), r. split; [reflexivity|]. split; [reflexivity|]. rewrite !ahead_left_apply. split.
  - rewrite ahead_left_dist. replace ((0 - 0) ^ 2 + (r - - r) ^ 2) with (Rsqr (2 * r)) by (unfold Rsqr; ring). rewrite sqrt_Rsqr_abs, Rabs_mult, (Rabs_pos_eq 2) by lra. reflexivity.
  - rewrite tr_angle. unfold ahead_left, vadd, vscale. destruct p. cbn [fst snd]. f_equal; field.
Qed.

(** A buffer and a state as in the hypotheses. *)
Definition ex_state (x y th : R) : obj := mkO "VehicleState" [("x", Num x); ("y", Num y); ("psi", Num th); ("vx", Num 3); ("delta", Num 0)]%string.

Lemma ex_state_at x y th : state_at (ex_state x y th) (x, y) th.
Proof. repeat split. Qed.

(** A buffer with round ends: the distance to the segment is less than the radius. *)
Definition closest (a b p : vec) : R :=
  let u := vsub b a in if Req_EM_T (vdot u u) 0 then 0 else Rmax 0 (Rmin 1 (vdot (vsub p a) u / vdot u u)).

Definition ex_contains (g : vec * vec * R) (p : vec) : bool :=
  let '(a, b, r) := g in ltb (vdist p (vadd a (vscale (closest a b p) (vsub b a)))) r.

Lemma closest_range a b p : 0 <= closest a b p <= 1.
Proof.
  unfold closest. destruct (Req_EM_T _ _); [lra|]. set (x := vdot _ _ / _). split; [apply Rmax_l|]. apply Rmax_lub; [lra|apply Rmin_l].
Qed.

Lemma closest_least a b p t : 0 <= t <= 1 -> vdist p (vadd a (vscale (closest a b p) (vsub b a))) <= vdist p (vadd a (vscale t (vsub b a))).
Proof.
  intro T. unfold vdist, vnorm. apply sqrt_le_1_alt. set (u := vsub b a). set (v := vsub p a).
  assert (F : forall k, vdot (vsub p (vadd a (vscale k u))) (vsub p (vadd a (vscale k u))) = vdot v v - 2 * k * vdot v u + k * k * vdot u u) by (intro k; unfold v; generalize u; intros [u1 u2]; destruct p, a; vunf; ring).
  rewrite !F. pose proof (vdot_self_nonneg u) as P. unfold closest. fold u v. destruct (Req_EM_T (vdot u u) 0) as [Z|Z].
  - assert (U : u = (0, 0)) by (apply vnorm_zero; unfold vnorm; rewrite Z; apply sqrt_0). assert (V : vdot v u = 0) by (rewrite U; unfold vdot; cbn [fst snd]; ring). rewrite V, Z. lra.
  - set (x := vdot v u / vdot u u). assert (X : vdot v u = x * vdot u u) by (unfold x; field; exact Z). rewrite X. set (n := vdot u u) in *. assert (0 < n) by lra.
    unfold Rmax, Rmin. destruct (Rle_dec 1 x); destruct (Rle_dec 0 _); try lra; try nra.
    + assert (0 <= n * ((x - t) ^ 2 - (x - 1) ^ 2)) by (apply Rmult_le_pos; nra). nra.
    + assert (0 <= n * (x - t) ^ 2) by (apply Rmult_le_pos; [lra|apply pow2_ge_0]). nra.
    + assert (0 <= n * ((x - t) ^ 2 - x ^ 2)) by (apply Rmult_le_pos; nra). nra.
Qed.

Lemma ex_buffer : right_buffer 1 (fun a b r => (a, b, r)) ex_contains.
Proof.
  split; [lra|]. intros a b r p R. unfold ex_contains. rewrite ltb_iff. split.
  - intro L. exists (closest a b p). split; [apply closest_range|lra].
  - intros (t & T & L). pose proof (closest_least a b p t T). lra.
Qed.

(** There are exact minimisers. *)
Lemma minimizer_exists : exists m, exact_minimizer m.
Proof.
  exists (fun f _ _ => epsilon (inhabits 0) (fun x => forall y, f x <= f y)). intros f br tol H y. exact (epsilon_spec (inhabits 0) (fun x => forall y, f x <= f y) H y).
Qed.

Example C86_ex : right_buffer 1 (fun a b r => (a, b, r)) ex_contains /\ (exists m, exact_minimizer m) /\
  state_at (ex_state 49 1 2) (ahead_left (0, 0) 0 49 1) 2 /\ INR 1 + 10 < 49 < INR 1 * 100 /\ state_at (ex_state 3 4 (PI / 2)) (3, 4) (PI / 2) /\
  (forall m, is_fulfilled (fun a b r => (a, b, r)) ex_contains m (PoseGoal (mkSE2T (3, 4) (PI / 2 + 2 * PI)) (1 / 10)) (ex_state 3 4 (PI / 2)) 0 = Ok true) /\
  (forall m, is_fulfilled (fun a b r => (a, b, r)) ex_contains m (PoseGoal (mkSE2T (3, 4) 0) 1) (ex_state 3 4 (PI / 2)) 0 = Ok false).
Proof.
  split; [exact ex_buffer|]. split; [exact minimizer_exists|]. split. { replace (ahead_left (0, 0) 0 49 1) with (49, 1) by (unfold ahead_left; rewrite cos_0, sin_0; cbn [fst snd]; f_equal; ring). apply ex_state_at. }
  split; [cbn; lra|]. split; [apply ex_state_at|]. split; intro m.
  - apply (proj2 (C86_pose_goal_tolerance _ _ ex_contains m (mkSE2T (3, 4) (PI / 2 + 2 * PI)) (1 / 10) _ _ _ 0 (ex_state_at 3 4 (PI / 2)))); [lra|reflexivity|]. cbn [t_theta]. replace (PI / 2 + 2 * PI) with (PI / 2 + 2 * INR 1 * PI) by (cbn [INR]; ring). split; [rewrite cos_period|rewrite sin_period]; reflexivity.
  - apply (proj2 (C86_pose_goal _ _ ex_contains m (mkSE2T (3, 4) 0) 1 _ _ _ 0 (ex_state_at 3 4 (PI / 2)))). right. cbn [t_p t_theta]. rewrite Rminus_0_r, cos_PI2, (proj2 (vdist_zero _ _) eq_refl). lra.
Qed.

(** A goal half way along a lane of 100 m with two control points: the position there
    does not fulfil it. *)
Example C86_ref_lane_ex : forall m, exact_minimizer m -> is_fulfilled (fun a b r => (a, b, r)) ex_contains m (RefLaneGoal (even_lane (0, 0) 0 100 1 2) 49) (ex_state 49 1 2) 0 = Ok false.
Proof.
  intros m M. assert (S : state_at (ex_state 49 1 2) (ahead_left (0, 0) 0 49 1) 2) by (replace (ahead_left (0, 0) 0 49 1) with (49, 1) by (unfold ahead_left; rewrite cos_0, sin_0; cbn [fst snd]; f_equal; ring); apply ex_state_at).
  apply (C86_ref_lane_refuted _ 1 _ ex_contains m (0, 0) 0 100 1 2 49 _ 49 1 2 0 ex_buffer M); try lra; try lia; try exact S; cbn; lra.
Qed.
