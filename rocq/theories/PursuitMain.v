(* Generated from tools/Pursuit.src by tools/gen_props.py. *)
(** Properties of the pure pursuit controller. *)
From Coq Require Import Reals Lra Psatz List Bool ClassicalEpsilon.
From Verif Require Import Base R2 GeoModel GeoSpec GeoProofs PursuitModel PursuitSpec.
Open Scope R_scope.

(** The lookahead is always inside its limits, and is the speed-dependent value
    where that is inside. *)
Lemma C38_lookahead_pf : forall c, pp_lo (pu_param c) <= pp_hi (pu_param c) ->
  pp_lo (pu_param c) <= get_lookahead c <= pp_hi (pu_param c) /\
  (pp_lo (pu_param c) <= k_lookahead (pu_param c) * pu_speed c <= pp_hi (pu_param c) -> get_lookahead c = k_lookahead (pu_param c) * pu_speed c) /\
  (k_lookahead (pu_param c) * pu_speed c <= pp_lo (pu_param c) -> get_lookahead c = pp_lo (pu_param c)) /\
  (pp_hi (pu_param c) <= k_lookahead (pu_param c) * pu_speed c -> get_lookahead c = pp_hi (pu_param c)).
Proof.
  intros c H. unfold get_lookahead. set (x := k_lookahead _ * _).
  unfold Rmin, Rmax. split; [|split; [|split]]; destruct (Rle_dec x (pp_lo (pu_param c))), (Rle_dec _ (pp_hi (pu_param c))); intros; lra.
Qed.

(** The constructor does not check the limits: with min > max the lookahead
    leaves them. *)
Lemma C38_unchecked_limits_refuted_pf : exists p, let c := update_speed (pu_new p) 1 in get_lookahead c < pp_lo (pu_param c).
Proof.
  exists (mkPPP 5 1 1 0 1 1). cbn. unfold get_lookahead. cbn. unfold Rmin, Rmax. destruct (Rle_dec _ _); destruct (Rle_dec _ _); lra.
Qed.

(** Without a pose or without a path: RuntimeError. *)
Lemma C38_needs_pose_and_path_pf : forall minimize c, pu_pose c = None \/ pu_path c = None -> get_desired_steering minimize c = Err PyRuntimeError.
Proof.
  intros minimize c [H|H]; unfold get_desired_steering; rewrite H; [reflexivity|]. destruct (pu_pose c) as [[q a]|]; reflexivity.
Qed.

(** The steering law.  The goal is a point of the path between min_distance and
    min_distance + lookahead further along; the steering angle delta is in
    (-pi/2, pi/2) and tan delta = length / lookahead * (2 sin alpha + 1e-9), where
    alpha is the angle under which the rear axle sees the goal. *)
Lemma C38_steering_law_pf : forall minimize c path p theta along delta, within_bounds minimize -> ready c path p theta along ->
  0 <= get_lookahead c -> get_desired_steering minimize c = Ok delta ->
  exists s goal, along + min_distance (pu_param c) <= s <= along + min_distance (pu_param c) + get_lookahead c /\
    goal = translation_from_SE2 (path s) /\
    let rear := rear_of p theta (pp_lr (pu_param c)) in
    exists sin_alpha, vdist goal rear * sin_alpha = leftward rear theta goal /\ - 1 <= sin_alpha <= 1 /\
      - (PI / 2) < delta < PI / 2 /\
      tan delta = pp_length (pu_param c) / get_lookahead c * (2 * sin_alpha + pp_eps).
Proof.
  intros minimize c path p theta along delta Hm (q & Hp & Hq & Hpose) HL H. apply pose_at_iff in Hpose as ->.
  unfold get_desired_steering in H. rewrite Hq, Hp in H. destruct (find_goal_point minimize c path _ along) as [s g] eqn:Ef.
  unfold find_goal_point in Ef. injection Ef as Es Eg.
  cbn [translation_angle_from_SE2] in H. set (rear := SE2_apply_T2 (SE2_from_translation_angle p theta) (- pp_lr (pu_param c), 0)) in *.
  set (al := atan2 _ _ - _) in H. cbv zeta in H. destruct (Req_EM_T (2 * sin al + pp_eps) 0) as [|N1]; [discriminate|].
  destruct (Req_EM_T _ 0) as [|N2]; [discriminate|]. injection H as <-.
  assert (NL : get_lookahead c <> 0). { intro E. apply N2. rewrite E. field. exact N1. }
  exists s, (translation_from_SE2 g). split; [rewrite <- Es; apply Hm; lra|]. split; [rewrite <- Eg, <- Es; reflexivity|].
  assert (Er : rear_of p theta (pp_lr (pu_param c)) = rear).
  { subst rear. unfold rear_of, SE2_apply_T2, SE2_from_translation_angle, vsub, vscale. cbn [m00 m01 m02 m10 m11 m12 fst snd]. f_equal; ring. }
  cbv zeta. rewrite Er. exists (sin al). split; [|split; [|split]].
  - subst al. rewrite sin_minus. destruct (angle_cs p theta) as [A B]. rewrite A, B.
    unfold vdist. set (d := vsub (translation_from_SE2 g) rear).
    change (snd (translation_from_SE2 g) - snd rear) with (snd d). change (fst (translation_from_SE2 g) - fst rear) with (fst d).
    destruct (atan2_spec (snd d) (fst d)) as [C1 C2]. rewrite <- surjective_pairing in C1, C2.
    unfold leftward, vcross. fold d. cbn [fst snd].
    replace (vnorm d * (sin (atan2 (snd d) (fst d)) * cos theta - cos (atan2 (snd d) (fst d)) * sin theta))
      with (vnorm d * sin (atan2 (snd d) (fst d)) * cos theta - vnorm d * cos (atan2 (snd d) (fst d)) * sin theta) by ring.
    rewrite C1, C2. ring.
  - apply SIN_bound.
  - pose proof (atan_bound (pp_length (pu_param c) / (get_lookahead c / (2 * sin al + pp_eps)))). lra.
  - rewrite tan_atan. field. split; [exact NL|exact N1].
Qed.

(** Signs: a goal to the left (or straight ahead) gives a positive angle, a goal
    more than 1e-9/2 (relative) to the right a negative one. *)
Lemma C38_steering_sign_pf : forall minimize c path p theta along delta, within_bounds minimize -> ready c path p theta along ->
  0 < get_lookahead c -> 0 < pp_length (pu_param c) -> get_desired_steering minimize c = Ok delta ->
  exists s goal, along + min_distance (pu_param c) <= s <= along + min_distance (pu_param c) + get_lookahead c /\
    goal = translation_from_SE2 (path s) /\
    let rear := rear_of p theta (pp_lr (pu_param c)) in
    (0 < leftward rear theta goal -> 0 < delta) /\
    (leftward rear theta goal < - (pp_eps / 2) * vdist goal rear -> delta < 0).
Proof.
  intros minimize c path p theta along delta Hm Hr HL Hl H.
  destruct (C38_steering_law_pf minimize c path p theta along delta Hm Hr (Rlt_le _ _ HL) H) as (s & goal & A & B & C). cbv zeta in C.
  destruct C as (sa & C1 & C2 & C3 & C4). exists s, goal. split; [exact A|]. split; [exact B|]. cbv zeta.
  set (rear := rear_of _ _ _) in *. assert (K : 0 < pp_length (pu_param c) / get_lookahead c) by (apply Rdiv_lt_0_compat; assumption).
  assert (N : 0 <= vdist goal rear) by apply vnorm_nonneg. unfold pp_eps in *.
  split; intro D.
  - assert (0 < sa) by nra. assert (T : 0 < tan delta) by (rewrite C4; apply Rmult_lt_0_compat; [exact K|lra]).
    destruct (Rlt_dec 0 delta) as [L|L]; [exact L|exfalso]. destruct (Req_dec delta 0) as [->|E]; [rewrite tan_0 in T; lra|].
    pose proof (tan_increasing delta 0 ltac:(lra) ltac:(lra) ltac:(pose proof PI_RGT_0; lra)) as I. rewrite tan_0 in I. lra.
  - assert (0 < vdist goal rear) by nra. assert (2 * sa + 1 / 1000000000 < 0) by nra.
    assert (T : tan delta < 0) by (rewrite C4; nra).
    destruct (Rlt_dec delta 0) as [L|L]; [exact L|exfalso]. destruct (Req_dec delta 0) as [->|E]; [rewrite tan_0 in T; lra|].
    pose proof (tan_increasing 0 delta ltac:(pose proof PI_RGT_0; lra) ltac:(lra) ltac:(lra)) as I. rewrite tan_0 in I. lra.
Qed.

(** "Steering is zero when the goal point is straight ahead" does not hold
    exactly: the guard against a division by zero always adds to the left. *)
Lemma C38_straight_ahead_refuted_pf : exists minimize c path p theta along delta, within_bounds minimize /\ ready c path p theta along /\
  (forall s, leftward (rear_of p theta (pp_lr (pu_param c))) theta (translation_from_SE2 (path s)) = 0) /\
  get_desired_steering minimize c = Ok delta /\ delta <> 0.
Proof.
  exists (fun _ lo _ => lo). set (path := fun s : R => SE2_from_translation_angle (s, 0) 0).
  set (c := update_pose (update_path (pu_new (mkPPP 3 30 1 2 1 1)) path) (SE2_from_translation_angle (0, 0) 0) 0).
  exists c, path, (0, 0), 0, 0, (atan (1 / (3 / pp_eps))).
  split; [intros f lo hi L; lra|]. split; [eexists; split; [reflexivity|split; [reflexivity|apply pose_at_iff; reflexivity]]|]. split; [|split].
  - intro s. unfold leftward, rear_of, vcross, vsub, vscale, translation_from_SE2. cbn. rewrite cos_0, sin_0. ring.
  - unfold get_desired_steering. cbn [c update_pose update_path pu_pose pu_path pu_new pu_param pp_lr].
    unfold find_goal_point. cbn [c update_pose update_path pu_pose pu_path pu_new pu_param pp_lr min_distance]. pose proof PI_RGT_0 as HP.
    rewrite (angle_id (0, 0) 0) by lra.
    unfold translation_angle_from_SE2, translation_from_SE2, SE2_apply_T2, path, SE2_from_translation_angle. cbn [m00 m01 m02 m10 m11 m12 fst snd]. rewrite cos_0, sin_0.
    assert (A : atan2 (0 - (0 * - (1) + 1 * 0 + 0 * 1)) (0 + 2 - (1 * - (1) + - 0 * 0 + 0 * 1)) - 0 = 0).
    { unfold atan2. destruct (Rlt_dec 0 _) as [L|L]; [|lra]. replace ((0 - (0 * - (1) + 1 * 0 + 0 * 1)) / _) with 0 by (field; lra). rewrite atan_0. ring. }
    rewrite A, sin_0. assert (GL : get_lookahead c = 3). { unfold get_lookahead, c. cbn. unfold Rmin, Rmax. destruct (Rle_dec _ _); destruct (Rle_dec _ _); lra. }
    fold path. fold c. rewrite GL. replace (2 * 0 + pp_eps) with pp_eps by ring.
    destruct (Req_EM_T pp_eps 0) as [E|E]; [unfold pp_eps in E; lra|].
    destruct (Req_EM_T (3 / pp_eps) 0) as [E'|E']; [exfalso; unfold pp_eps in E'; lra|]. reflexivity.
  - intro E. apply (f_equal tan) in E. rewrite tan_atan, tan_0 in E. unfold pp_eps in E. lra.
Qed.

(** It is positive and at most length / lookahead * 1e-9. *)
Lemma C38_straight_ahead_partial_pf : forall minimize c path p theta along delta, within_bounds minimize -> ready c path p theta along ->
  0 < get_lookahead c -> 0 < pp_length (pu_param c) -> get_desired_steering minimize c = Ok delta ->
  (forall s, translation_from_SE2 (path s) <> rear_of p theta (pp_lr (pu_param c)) /\
             leftward (rear_of p theta (pp_lr (pu_param c))) theta (translation_from_SE2 (path s)) = 0) ->
  0 < delta <= pp_length (pu_param c) / get_lookahead c * pp_eps.
Proof.
  intros minimize c path p theta along delta Hm Hr HL Hl H S.
  destruct (C38_steering_law_pf minimize c path p theta along delta Hm Hr (Rlt_le _ _ HL) H) as (s & goal & A & B & C). cbv zeta in C.
  destruct C as (sa & C1 & C2 & C3 & C4). set (rear := rear_of _ _ _) in *. destruct (S s) as [S1 S2]. rewrite <- B in S1, S2. rewrite S2 in C1.
  assert (N : vdist goal rear <> 0) by (intro E; apply S1, vdist_zero; exact E).
  assert (sa = 0) as -> by (apply (Rmult_eq_reg_l (vdist goal rear)); [lra|exact N]).
  assert (K : 0 < pp_length (pu_param c) / get_lookahead c) by (apply Rdiv_lt_0_compat; assumption).
  assert (E : 0 < pp_eps) by (unfold pp_eps; lra).
  replace (2 * 0 + pp_eps) with pp_eps in C4 by ring. set (y := _ * pp_eps) in *. assert (Y : 0 < y) by (apply Rmult_lt_0_compat; assumption).
  assert (D : 0 < delta).
  { destruct (Rlt_dec 0 delta) as [L|L]; [exact L|exfalso]. destruct (Req_dec delta 0) as [->|Q]; [rewrite tan_0 in C4; lra|].
    pose proof (tan_increasing delta 0 ltac:(lra) ltac:(lra) ltac:(pose proof PI_RGT_0; lra)) as I. rewrite tan_0 in I. lra. }
  split; [exact D|]. rewrite <- (atan_tan delta) by lra. rewrite C4. clear - Y.
  destruct (MVT_cor2 atan (fun x => / (1 + x ^ 2)) 0 y Y) as (z & Z1 & Z2).
  - intros x Hx. apply derivable_pt_lim_atan.
  - rewrite atan_0 in Z1. pose proof (pow2_ge_0 z) as Q. assert (I : / (1 + z ^ 2) <= 1) by (rewrite <- Rinv_1; apply Rinv_le_contravar; lra). nra.
Qed.

(** The controller fails exactly when the guarded sine vanishes or the lookahead
    is zero. *)
Lemma C38_defined_pf : forall minimize c path p theta along, ready c path p theta along -> 0 < get_lookahead c ->
  let goal := translation_from_SE2 (snd (find_goal_point minimize c path (SE2_from_translation_angle p theta) along)) in
  let rear := rear_of p theta (pp_lr (pu_param c)) in
  goal <> rear ->
  ((exists delta, get_desired_steering minimize c = Ok delta) <-> 2 * leftward rear theta goal <> - pp_eps * vdist goal rear).
Proof.
  intros minimize c path p theta along (q & Hp & Hq & Hpose) HL. apply pose_at_iff in Hpose as ->. cbv zeta.
  unfold get_desired_steering. rewrite Hq, Hp. destruct (find_goal_point minimize c path _ along) as [s g]. cbn [snd translation_angle_from_SE2]. cbv zeta.
  set (rear := SE2_apply_T2 (SE2_from_translation_angle p theta) (- pp_lr (pu_param c), 0)).
  assert (Er : rear_of p theta (pp_lr (pu_param c)) = rear).
  { subst rear. unfold rear_of, SE2_apply_T2, SE2_from_translation_angle, vsub, vscale. cbn [m00 m01 m02 m10 m11 m12 fst snd]. f_equal; ring. }
  rewrite Er. intro NE. set (al := atan2 _ _ - _).
  assert (V : vdist (translation_from_SE2 g) rear * sin al = leftward rear theta (translation_from_SE2 g)).
  { subst al. rewrite sin_minus. destruct (angle_cs p theta) as [A B]. rewrite A, B.
    unfold vdist. set (d := vsub (translation_from_SE2 g) rear).
    change (snd (translation_from_SE2 g) - snd rear) with (snd d). change (fst (translation_from_SE2 g) - fst rear) with (fst d).
    destruct (atan2_spec (snd d) (fst d)) as [C1 C2]. rewrite <- surjective_pairing in C1, C2.
    unfold leftward, vcross. fold d. cbn [fst snd].
    replace (vnorm d * (sin (atan2 (snd d) (fst d)) * cos theta - cos (atan2 (snd d) (fst d)) * sin theta))
      with (vnorm d * sin (atan2 (snd d) (fst d)) * cos theta - vnorm d * cos (atan2 (snd d) (fst d)) * sin theta) by ring.
    rewrite C1, C2. ring. }
  assert (N : 0 < vdist (translation_from_SE2 g) rear).
  { assert (0 <= vdist (translation_from_SE2 g) rear) by apply vnorm_nonneg. destruct (Req_dec (vdist (translation_from_SE2 g) rear) 0) as [E|E]; [apply vdist_zero in E; contradiction|lra]. }
  rewrite <- V. destruct (Req_EM_T (2 * sin al + pp_eps) 0) as [E|E].
  - split; [intros [d D]; discriminate|]. intro Q. exfalso. apply Q. replace pp_eps with (- (2 * sin al)) by lra. ring.
  - split.
    + intros _ Q. apply E. apply (Rmult_eq_reg_l (vdist (translation_from_SE2 g) rear)); [lra|lra].
    + intros _. destruct (Req_EM_T (get_lookahead c / _) 0) as [E'|E']; [exfalso|eauto].
      apply (Rmult_eq_compat_r (2 * sin al + pp_eps)) in E'. unfold Rdiv in E'. rewrite Rmult_assoc, Rinv_l, Rmult_0_l, Rmult_1_r in E' by exact E. lra.
Qed.

(** The goal, if the minimiser finds the minimum: of the points of the path between
    min_distance and min_distance + lookahead further along, one whose distance from the
    vehicle is closest to the lookahead; exactly at the lookahead distance, if one of
    them is. *)
Lemma C38_goal_point_pf : forall minimize c path p theta along, within_bounds minimize -> finds_minimum minimize -> ready c path p theta along -> 0 <= get_lookahead c ->
  continuity (fun s => fst (translation_from_SE2 (path s))) -> continuity (fun s => snd (translation_from_SE2 (path s))) ->
  exists s goal, (forall q, pu_pose c = Some (q, along) -> find_goal_point minimize c path q along = (s, path s)) /\ goal = translation_from_SE2 (path s) /\
    let window x := along + min_distance (pu_param c) <= x <= along + min_distance (pu_param c) + get_lookahead c in
    window s /\ (forall x, window x -> Rabs (vdist p goal - get_lookahead c) <= Rabs (vdist p (translation_from_SE2 (path x)) - get_lookahead c)) /\
    ((exists x, window x /\ vdist p (translation_from_SE2 (path x)) = get_lookahead c) -> vdist p goal = get_lookahead c).
Proof.
  intros minimize c path p theta along W M (q & P & Q & A) L CX CY. cbv zeta. pose proof A as A'. apply pose_at_iff in A'. subst q.
  set (q := SE2_from_translation_angle p theta) in *. set (lo := along + min_distance (pu_param c)). set (s := minimize (fun s => Rabs (norm_between_SE2value q (path s) - get_lookahead c)) lo (lo + get_lookahead c)).
  assert (N : forall x, norm_between_SE2value q (path x) = vdist p (translation_from_SE2 (path x))) by (intro x; unfold norm_between_SE2value, q, vdist, translation_from_SE2 at 1, SE2_from_translation_angle; cbn [m02 m12]; rewrite <- surjective_pairing; reflexivity).
  assert (B : lo <= s <= lo + get_lookahead c) by (apply W; lra).
  assert (K : forall x, lo <= x <= lo + get_lookahead c -> Rabs (vdist p (translation_from_SE2 (path s)) - get_lookahead c) <= Rabs (vdist p (translation_from_SE2 (path x)) - get_lookahead c)).
  { intros x X. rewrite <- !N. apply (M (fun s => Rabs (norm_between_SE2value q (path s) - get_lookahead c))); [|exact X]. intros y _.
    apply (continuity_pt_comp (fun s => norm_between_SE2value q (path s) - get_lookahead c) Rabs); [|apply Rcontinuity_abs].
    apply (continuity_pt_minus (fun s => norm_between_SE2value q (path s)) (fun _ => get_lookahead c)); [|apply continuity_pt_const; intros a b; reflexivity].
    unfold norm_between_SE2value, vnorm, vdot, vsub. cbn [fst snd]. apply (continuity_pt_comp (fun s => (fst (translation_from_SE2 q) - fst (translation_from_SE2 (path s))) * (fst (translation_from_SE2 q) - fst (translation_from_SE2 (path s))) + (snd (translation_from_SE2 q) - snd (translation_from_SE2 (path s))) * (snd (translation_from_SE2 q) - snd (translation_from_SE2 (path s)))) sqrt); [|apply continuity_pt_sqrt; cbv beta; apply Rplus_le_le_0_compat; apply Rle_0_sqr].
    pose proof (CX y). pose proof (CY y). assert (forall k, continuity_pt (fun _ : R => k) y) by (intro k; apply continuity_pt_const; intros a b; reflexivity).
    apply (continuity_pt_plus (fun s => _ * _) (fun s => _ * _)); apply (continuity_pt_mult (fun s => _ - _) (fun s => _ - _)); apply (continuity_pt_minus (fun _ => _) (fun s => _ (translation_from_SE2 (path s)))); auto. }
  exists s, (translation_from_SE2 (path s)). split; [intros q' E; rewrite Q in E; injection E as <-; reflexivity|]. split; [reflexivity|]. split; [exact B|]. split; [exact K|].
  intros (x & X & E). specialize (K x X). rewrite E, (Rminus_diag_eq (get_lookahead c) (get_lookahead c) eq_refl), Rabs_R0 in K. pose proof (Rabs_pos (vdist p (translation_from_SE2 (path s)) - get_lookahead c)) as Z. assert (Y : Rabs (vdist p (translation_from_SE2 (path s)) - get_lookahead c) = 0) by lra. unfold Rabs in Y. destruct (Rcase_abs _) in Y; lra.
Qed.
