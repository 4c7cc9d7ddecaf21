(** Properties of planar geometry helpers. *)
From Coq Require Import Reals Lra Psatz List Bool Lia.
From Verif Require Import Base R2 GeoModel GeoSpec GeoProofs.
Import ListNotations.
Open Scope R_scope.
(* BODY *)

(** ** C60 *)

(** as_SE2 is the pose with that position and heading; from_SE2 gives it back,
    with the heading brought to (-pi, pi]. *)
Theorem C60_pose_round_trip : forall t : SE2Transform,
  pose_at (as_SE2 t) (t_p t) (t_theta t) /\
  t_p (from_SE2 (as_SE2 t)) = t_p t /\ same_angle (t_theta (from_SE2 (as_SE2 t))) (t_theta t) /\
  - PI < t_theta (from_SE2 (as_SE2 t)) <= PI /\
  (- PI < t_theta t <= PI -> from_SE2 (as_SE2 t) = t).
Proof.
  intros [[x y] th]. unfold as_SE2, from_SE2, translation_angle_from_SE2. cbn [t_p t_theta]. split; [apply pose_at_iff; reflexivity|].
  split; [reflexivity|]. split; [exact (angle_cs (x, y) th)|]. split; [apply angle_range|]. intro H. f_equal. apply angle_id. exact H.
Qed.

(** The transform of a state is the pose of that state. *)
Theorem C60_pose_of_state : forall x, pose_at (as_SE2 (from_PoseState x)) (ps_x x, ps_y x) (ps_psi x).
Proof. intros [x y psi]. apply pose_at_iff. reflexivity. Qed.

Theorem C60_matrix_round_trip : forall q, is_se2 q -> as_SE2 (from_SE2 q) = q.
Proof. intros q H. apply (as_from q H). Qed.

Example C60_round_ex : is_se2 (SE2_from_translation_angle (1, 2) (7 * PI)) /\ - PI < 3 <= PI.
Proof. split; [apply is_se2_of|]. pose proof PI2_3_2. lra. Qed.

(** relative_pose of a pose: the one and only [rel] with base * rel = pose. *)
Theorem C60_relative_pose : forall base pose, is_se2 base ->
  exists rel, relative_pose base pose = Ok rel /\ mmul base rel = pose /\
    (forall r, mmul base r = pose -> r = rel) /\ (is_se2 pose -> is_se2 rel) /\
    (forall p, SE2_apply_T2 base (SE2_apply_T2 rel p) = SE2_apply_T2 pose p).
Proof.
  intros base pose H. unfold relative_pose. rewrite (minv_se2 base H). eexists. split; [reflexivity|].
  assert (E : mmul base (mmul (SE2_inverse base) pose) = pose) by (rewrite <- mmul_assoc, (se2_inv_r base H); apply mmul_id_l).
  split; [exact E|]. split; [|split].
  - intros r <-. rewrite <- mmul_assoc, (se2_inv_l base H). symmetry. apply mmul_id_l.
  - intro P. apply is_se2_mul; [apply is_se2_inv; exact H|exact P].
  - intro p. rewrite <- E at 2. unfold SE2_apply_T2, mmul. cbn [m00 m01 m02 m10 m11 m12 fst snd]. f_equal; ring.
Qed.

(** SE2_apply_T2 keeps distances and orientation, and composes. *)
Theorem C60_apply_is_rigid : forall q, is_se2 q ->
  (forall p p', vdist (SE2_apply_T2 q p) (SE2_apply_T2 q p') = vdist p p') /\
  (forall p p' p'', vcross (vsub (SE2_apply_T2 q p') (SE2_apply_T2 q p)) (vsub (SE2_apply_T2 q p'') (SE2_apply_T2 q p)) = vcross (vsub p' p) (vsub p'' p)) /\
  (forall q' p, SE2_apply_T2 (mmul q q') p = SE2_apply_T2 q (SE2_apply_T2 q' p)) /\
  SE2_apply_T2 q (0, 0) = translation_from_SE2 q.
Proof.
  intros q (p0 & t & H). apply pose_at_iff in H as ->. pose proof (cs1 t) as C.
  unfold SE2_apply_T2, SE2_from_translation_angle, mmul, translation_from_SE2. cbn [m00 m01 m02 m10 m11 m12 fst snd]. split; [|split; [|split]].
  - intros [x y] [x' y']. unfold vdist, vnorm, vdot, vsub. cbn [fst snd]. f_equal.
    match goal with |- ?l = ?r => replace l with ((cos t * cos t + sin t * sin t) * ((x - x') * (x - x') + (y - y') * (y - y'))) by ring end. rewrite C. ring.
  - intros [x y] [x' y'] [x2 y2]. unfold vcross, vsub. cbn [fst snd].
    match goal with |- ?l = ?r => replace l with ((cos t * cos t + sin t * sin t) * ((x' - x) * (y2 - y) - (y' - y) * (x2 - x))) by ring end. rewrite C. ring.
  - intros q' [x y]. cbn [fst snd]. f_equal; ring.
  - f_equal; ring.
Qed.

(** The same map is used for shapely geometries and point lists. *)
Theorem C60_point_lists : forall q pts,
  apply_SE2_to_shapely_geo pts q = map (SE2_apply_T2 q) pts /\
  (pts <> [] -> transform_xy q pts = Ok (map (SE2_apply_T2 q) pts)).
Proof.
  intros q pts. split.
  - unfold apply_SE2_to_shapely_geo, affine_transform, SE2_apply_T2. apply map_ext. intro p. f_equal; ring.
  - intro H. unfold transform_xy. destruct pts; [contradiction|reflexivity].
Qed.

(** The list helper is not total: no points is an error, although a list of no
    points has an image. *)
Theorem C60_empty_point_list_refuted : exists q, is_se2 q /\ transform_xy q [] <> Ok (map (SE2_apply_T2 q) []).
Proof. exists (SE2_from_translation_angle (0, 0) 0). split; [apply is_se2_of|discriminate]. Qed.

(** Interpolation: starts at q0, ends at q1, is a pose in between, turns at a
    constant rate through the shorter angle, is a straight line at constant speed
    for equal headings, and does not depend on the frame. *)
Theorem C60_interpolate : forall q0 q1, is_se2 q0 -> is_se2 q1 ->
  SE2_interpolate q0 q1 0 = q0 /\ SE2_interpolate q0 q1 1 = q1 /\
  (exists w, - PI < w <= PI /\ forall al, exists p, pose_at (SE2_interpolate q0 q1 al) p (angle_from_SE2 q0 + al * w)) /\
  (same_angle (angle_from_SE2 q0) (angle_from_SE2 q1) -> forall al,
     translation_from_SE2 (SE2_interpolate q0 q1 al) =
     vadd (vscale (1 - al) (translation_from_SE2 q0)) (vscale al (translation_from_SE2 q1))) /\
  (forall g al, is_se2 g -> SE2_interpolate (mmul g q0) (mmul g q1) al = mmul g (SE2_interpolate q0 q1 al)) /\
  (forall al be, 0 <= al <= 1 -> 0 <= be <= 1 -> angle_from_SE2 (mmul (SE2_inverse q0) q1) < PI ->
     SE2_interpolate q0 (SE2_interpolate q0 q1 be) al = SE2_interpolate q0 q1 (al * be)).
Proof.
  intros q0 q1 H0 H1. pose proof (is_se2_mul _ _ (is_se2_inv q0 H0) H1) as Hr. split; [|split; [|split; [|split; [|split]]]].
  - unfold SE2_interpolate. cbv zeta. rewrite alg_scale_0, exp_zero. apply mmul_id_r.
  - unfold SE2_interpolate. cbv zeta. rewrite alg_scale_1, exp_log by exact Hr. rewrite <- mmul_assoc, (se2_inv_r q0 H0). apply mmul_id_l.
  - exists (angle_from_SE2 (mmul (SE2_inverse q0) q1)). split; [apply angle_range|]. intro al. destruct (interpolate_angle q0 q1 al H0 H1) as [p E].
    exists p. apply pose_at_iff. exact E.
  - intros S al.
    assert (A : angle_from_SE2 (mmul (SE2_inverse q0) q1) = 0).
    { rewrite <- (as_from q0 H0). rewrite <- (as_from q1 H1). rewrite se2_inv, se2_mul. destruct S as [S1 S2]. pose proof PI_RGT_0.
      match goal with |- angle_from_SE2 (SE2_from_translation_angle ?P ?T) = 0 => destruct (angle_cs P T) as [K1 K2] end.
      apply angle_unique; [apply angle_range|lra| |].
      - rewrite K1, cos_0. rewrite cos_plus, cos_neg, sin_neg, S1, S2. pose proof (cs1 (angle_from_SE2 q1)). lra.
      - rewrite K2, sin_0. rewrite sin_plus, cos_neg, sin_neg, S1, S2. ring. }
    unfold SE2_interpolate. cbv zeta. unfold SE2_log. rewrite A. unfold SE2_exp, alg_scale. cbn [lin ang].
    replace (al * 0) with 0 by ring. unfold jacA, jacB. destruct (Req_EM_T 0 0) as [_|N]; [|contradiction].
    unfold vscale, vadd. cbn [fst snd].
    destruct H0 as (p & t & H0). apply pose_at_iff in H0 as ->. destruct H1 as (p' & t' & H1). apply pose_at_iff in H1 as ->.
    unfold translation_from_SE2, mmul, SE2_inverse, SE2_from_translation_angle. cbn [m00 m01 m02 m10 m11 m12 fst snd].
    pose proof (cs1 t) as C. destruct p as [x y], p' as [x' y']. cbn [fst snd]. f_equal.
    + match goal with |- ?l = _ => replace l with (x + al * ((cos t * cos t + sin t * sin t) * (x' - x))) by field end. rewrite C. ring.
    + match goal with |- ?l = _ => replace l with (y + al * ((cos t * cos t + sin t * sin t) * (y' - y))) by field end. rewrite C. ring.
  - intros g al Hg. unfold SE2_interpolate. cbv zeta. rewrite (inv_mul g q0 Hg H0). rewrite (mmul_assoc (SE2_inverse q0)), <- (mmul_assoc (SE2_inverse g)), (se2_inv_l g Hg), mmul_id_l.
    apply mmul_assoc.
  - intros al be Ha Hb Hlt. unfold SE2_interpolate. cbv zeta. rewrite <- mmul_assoc, (se2_inv_l q0 H0), mmul_id_l.
    rewrite log_exp, alg_scale_scale; [reflexivity|]. unfold alg_scale, SE2_log. cbn [ang]. pose proof (angle_range (mmul (SE2_inverse q0) q1)). pose proof PI_RGT_0. nra.
Qed.

Example C60_interpolate_ex : exists q0 q1, is_se2 q0 /\ is_se2 q1 /\ q0 <> q1 /\ same_angle (angle_from_SE2 q0) (angle_from_SE2 q1) /\
  angle_from_SE2 (mmul (SE2_inverse q0) q1) < PI.
Proof.
  exists (SE2_from_translation_angle (0, 0) 1), (SE2_from_translation_angle (3, 4) 1). split; [apply is_se2_of|]. split; [apply is_se2_of|]. pose proof PI2_3_2.
  split; [intros [= E _]; lra|]. split.
  - rewrite !angle_id by lra. split; reflexivity.
  - rewrite se2_inv, se2_mul, angle_id; lra.
Qed.

(** The distance of positions. *)
Theorem C60_position_distance : forall q0 q1 q2,
  norm_between_SE2value q0 q1 = vdist (translation_from_SE2 q0) (translation_from_SE2 q1) /\
  norm_between_SE2value q0 q1 = norm_between_SE2value q1 q0 /\
  (norm_between_SE2value q0 q1 = 0 <-> translation_from_SE2 q0 = translation_from_SE2 q1) /\
  norm_between_SE2value q0 q2 <= norm_between_SE2value q0 q1 + norm_between_SE2value q1 q2.
Proof.
  intros q0 q1 q2. split; [reflexivity|]. split; [apply vdist_sym|]. split; [apply vdist_zero|]. apply vdist_triangle.
Qed.

(** ** C61 *)

(** A closed ring of at least one edge loses its last vertex and nothing else;
    an open list of vertices is kept. *)
Theorem C61_polygon : forall (V : Type) (veqb : V -> V -> bool) v0 mid vn, (forall a b, veqb a b = true <-> a = b) ->
  (v0 = vn -> sPolygon2crPolygon veqb (v0 :: mid ++ [vn]) = Ok (v0 :: mid)) /\
  (v0 <> vn -> sPolygon2crPolygon veqb (v0 :: mid ++ [vn]) = Ok (v0 :: mid ++ [vn])).
Proof.
  intros V veqb v0 mid vn E. unfold sPolygon2crPolygon.
  assert (L : last (v0 :: mid ++ [vn]) v0 = vn) by (change (v0 :: mid ++ [vn]) with ((v0 :: mid) ++ [vn]); apply last_last).
  assert (R : removelast (v0 :: mid ++ [vn]) = v0 :: mid) by (change (v0 :: mid ++ [vn]) with ((v0 :: mid) ++ [vn]); apply removelast_last).
  rewrite L, R. split; intro H.
  - apply E in H. rewrite H. reflexivity.
  - destruct (veqb v0 vn) eqn:K; [apply E in K; contradiction|reflexivity].
Qed.

(** A line of n+1 points becomes n polygons; the i-th is made from the segment
    between points i and i+1. *)
Theorem C61_line : forall (V : Type) (veqb : V -> V -> bool) (buffer : V -> V -> list V) (l : list V),
  (forall a b, buffer a b <> []) ->
  exists ps, sLine2crPolygon veqb buffer l = Ok ps /\ length ps = pred (length l) /\
    forall i a b, nth_error l i = Some a -> nth_error l (S i) = Some b ->
      exists p, nth_error ps i = Some p /\ sPolygon2crPolygon veqb (buffer a b) = Ok p.
Proof.
  intros V veqb buffer l NE. unfold sLine2crPolygon. induction l as [|x l IH].
  - exists []. split; [reflexivity|]. split; [reflexivity|]. intros [|i] a b H; discriminate.
  - destruct l as [|y l].
    + exists []. split; [reflexivity|]. split; [reflexivity|]. intros [|i] a b H H'; [|destruct i]; discriminate.
    + destruct IH as (ps & A & B & C).
      assert (P : exists p, sPolygon2crPolygon veqb (buffer x y) = Ok p).
      { unfold sPolygon2crPolygon. specialize (NE x y). destruct (buffer x y) as [|v r]; [contradiction|]. destruct (veqb _ _); eauto. }
      destruct P as [p P]. exists (p :: ps). split.
      * change (combine (removelast (x :: y :: l)) (tl (x :: y :: l))) with ((x, y) :: combine (removelast (y :: l)) (tl (y :: l))).
        cbn [segs_loop]. rewrite P, A. reflexivity.
      * split; [cbn [length] in *; lia|]. intros [|i] a b H H'.
        -- injection H as <-. injection H' as <-. exists p. split; [reflexivity|exact P].
        -- exact (C i a b H H').
Qed.

(** The dispatch on the kind of geometry. *)
Theorem C61_dispatch : forall (V : Type) (veqb : V -> V -> bool) (buffer : V -> V -> list V),
  (forall e p, sPolygon2crPolygon veqb e = Ok p -> shapely2crPolygons veqb buffer (SPolygon e) = Ok [p]) /\
  (forall l, shapely2crPolygons veqb buffer (SLineString l) = sLine2crPolygon veqb buffer l) /\
  (forall l, shapely2crPolygons veqb buffer (SLinearRing l) = sLine2crPolygon veqb buffer l) /\
  shapely2crPolygons veqb buffer SOther = Err PyValueError.
Proof.
  intros V veqb buffer. split; [|auto]. intros e p H. cbn [shapely2crPolygons]. rewrite H. reflexivity.
Qed.

Example C61_ex : sPolygon2crPolygon Nat.eqb [1; 2; 3; 1]%nat = Ok [1; 2; 3]%nat /\
  sLine2crPolygon Nat.eqb (fun a b => [a; b; b; a]) [1; 2; 3]%nat = Ok [[1; 2; 2]; [2; 3; 3]]%nat.
Proof. split; reflexivity. Qed.

(** ** C75 *)

(** get_distance_SE2 is symmetric, frame independent, at least the straight
    distance, zero exactly for equal positions, and the straight distance for
    equal headings. *)
Theorem C75_pose_distance_partial : forall q0 q1, is_se2 q0 -> is_se2 q1 ->
  get_distance_SE2 q0 q1 = get_distance_SE2 q1 q0 /\
  (forall g, is_se2 g -> get_distance_SE2 (mmul g q0) (mmul g q1) = get_distance_SE2 q0 q1) /\
  norm_between_SE2value q0 q1 <= get_distance_SE2 q0 q1 /\
  (get_distance_SE2 q0 q1 = 0 <-> translation_from_SE2 q0 = translation_from_SE2 q1).
Proof.
  intros q0 q1 H0 H1. pose proof (is_se2_mul _ _ (is_se2_inv q0 H0) H1) as Hr.
  pose proof (log_lin_norm _ Hr) as L. set (w := angle_from_SE2 (mmul (SE2_inverse q0) q1)) in *.
  pose proof (jac_nz w (angle_range _)) as D.
  assert (T : vnorm (translation_from_SE2 (mmul (SE2_inverse q0) q1)) = norm_between_SE2value q0 q1).
  { destruct H0 as (p & t & H0). apply pose_at_iff in H0 as ->. unfold norm_between_SE2value, vnorm. f_equal.
    unfold translation_from_SE2, mmul, SE2_inverse, SE2_from_translation_angle, vdot, vsub. cbn [m00 m01 m02 m10 m11 m12 fst snd]. destruct p as [x y], q1 as [? ? x' ? ? y']. cbn [m02 m12 fst snd].
    pose proof (cs1 t) as C. match goal with |- ?l = _ => replace l with ((cos t * cos t + sin t * sin t) * ((x - x') * (x - x') + (y - y') * (y - y'))) by ring end. rewrite C. ring. }
  fold (get_distance_SE2 q0 q1) in L. rewrite T in L.
  assert (S : 0 < sqrt (jacA w * jacA w + jacB w * jacB w)) by (apply sqrt_lt_R0; exact D).
  assert (Dn : 0 <= get_distance_SE2 q0 q1) by apply vnorm_nonneg.
  split; [|split; [|split]].
  - unfold get_distance_SE2. rewrite <- (dist_inv _ Hr). f_equal. f_equal. f_equal. rewrite inv_mul; [|apply is_se2_inv; exact H0|exact H1]. f_equal.
    rewrite <- (mmul_id_r (SE2_inverse (SE2_inverse q0))), <- (se2_inv_l q0 H0), <- mmul_assoc, (se2_inv_l _ (is_se2_inv q0 H0)). apply mmul_id_l.
  - intros g Hg. unfold get_distance_SE2. rewrite (inv_mul g q0 Hg H0). rewrite (mmul_assoc (SE2_inverse q0)), <- (mmul_assoc (SE2_inverse g)), (se2_inv_l g Hg), mmul_id_l. reflexivity.
  - assert (S1 : sqrt (jacA w * jacA w + jacB w * jacB w) <= 1).
    { rewrite <- sqrt_1. apply sqrt_le_1_alt. destruct (Req_dec w 0) as [E|E].
      - rewrite E. unfold jacA, jacB. destruct (Req_EM_T 0 0); lra.
      - pose proof (jac_cos w (angle_range _) E) as J. apply (Rmult_le_reg_r (w * w)); [nra|]. rewrite J.
        assert (B : sin (w / 2) * sin (w / 2) <= w / 2 * (w / 2)).
        { destruct (Rlt_dec 0 w) as [P|P].
          - pose proof (sin_lt_x (w / 2) ltac:(lra)). pose proof (angle_range (mmul (SE2_inverse q0) q1)). fold w in H2. pose proof PI_RGT_0.
            pose proof (sin_ge_0 (w / 2) ltac:(lra) ltac:(lra)). nra.
          - pose proof (sin_lt_x (- (w / 2)) ltac:(lra)) as P1. pose proof (angle_range (mmul (SE2_inverse q0) q1)) as P2. fold w in P2. pose proof PI_RGT_0.
            pose proof (sin_ge_0 (- (w / 2)) ltac:(lra) ltac:(lra)) as P3. rewrite sin_neg in P1, P3. nra. }
        replace (cos w) with (cos (2 * (w / 2))) by (f_equal; field). rewrite cos_2a_sin. nra. }
    rewrite <- L. nra.
  - split; intro H.
    + apply vdist_zero. unfold vdist. fold (norm_between_SE2value q0 q1). rewrite <- L, H. ring.
    + assert (N : norm_between_SE2value q0 q1 = 0) by (apply vdist_zero; exact H). rewrite N in L. nra.
Qed.

(** It does not separate poses that differ in heading only ... *)
Theorem C75_zero_means_same_pose_refuted : exists q0 q1, is_se2 q0 /\ is_se2 q1 /\ q0 <> q1 /\ get_distance_SE2 q0 q1 = 0.
Proof.
  exists (SE2_from_translation_angle (0, 0) 0), (SE2_from_translation_angle (0, 0) (PI / 2)). split; [apply is_se2_of|]. split; [apply is_se2_of|].
  split; [|apply C75_pose_distance_partial_pf; [apply is_se2_of|apply is_se2_of|reflexivity]].
  intros [= E _]. rewrite cos_0, cos_PI2 in E. lra.
Qed.

(** ... and a detour can be shorter than the direct way. *)
Theorem C75_triangle_inequality_refuted : exists q0 q1 q2, is_se2 q0 /\ is_se2 q1 /\ is_se2 q2 /\
  get_distance_SE2 q0 q1 + get_distance_SE2 q1 q2 < get_distance_SE2 q0 q2.
Proof.
  exists (SE2_from_translation_angle (0, 0) 0), (SE2_from_translation_angle (0, 0) (PI / 2)), (SE2_from_translation_angle (1, 0) (PI / 2)).
  split; [apply is_se2_of|]. split; [apply is_se2_of|]. split; [apply is_se2_of|]. pose proof PI2_3_2 as P.
  rewrite (proj2 (proj2 (proj2 (proj2 (C75_pose_distance_partial_pf (SE2_from_translation_angle (0, 0) 0) (SE2_from_translation_angle (0, 0) (PI / 2)) (is_se2_of _ _) (is_se2_of _ _))))) eq_refl).
  assert (A : get_distance_SE2 (SE2_from_translation_angle (0, 0) (PI / 2)) (SE2_from_translation_angle (1, 0) (PI / 2)) = 1).
  { unfold get_distance_SE2. rewrite se2_inv, se2_mul. unfold SE2_log. rewrite angle_id by lra. replace (- (PI / 2) + PI / 2) with 0 by ring.
    unfold jacA, jacB. destruct (Req_EM_T 0 0) as [_|N]; [|contradiction]. unfold SE2_from_translation_angle, SE2_apply_T2. cbn [lin m00 m01 m02 m10 m11 m12 fst snd].
    rewrite cos_neg, sin_neg, cos_PI2, sin_PI2. unfold vnorm, vdot. cbn [fst snd].
    match goal with |- sqrt ?e = 1 => replace e with 1 by field end. apply sqrt_1. }
  rewrite A. unfold get_distance_SE2. rewrite se2_inv, se2_mul. unfold SE2_log. rewrite angle_id by lra. replace (- 0 + PI / 2) with (PI / 2) by ring.
  unfold jacA, jacB. destruct (Req_EM_T (PI / 2) 0) as [N|_]; [lra|]. rewrite cos_PI2, sin_PI2.
  unfold SE2_from_translation_angle, SE2_apply_T2. cbn [lin m00 m01 m02 m10 m11 m12 fst snd]. replace (- 0) with 0 by ring. rewrite cos_0, sin_0. unfold vnorm, vdot. cbn [fst snd].
  match goal with |- _ < sqrt ?e => replace e with (PI * PI / 8) by (field; lra) end.
  rewrite Rplus_0_l. rewrite <- sqrt_1 at 1. apply sqrt_lt_1_alt. nra.
Qed.

Example C75_ex : is_se2 (SE2_from_translation_angle (1, 2) 3) /\ is_se2 mid.
Proof. split; [apply is_se2_of|]. replace mid with (SE2_from_translation_angle (0, 0) 0); [apply is_se2_of|]. unfold SE2_from_translation_angle, mid. rewrite cos_0, sin_0. f_equal; cbn; ring. Qed.
