(* Generated from tools/Lane.src by tools/gen_props.py. *)
(** Properties of lanes. *)
From Coq Require Import Reals Lra Psatz List Bool ZArith Lia Arith.
From Verif Require Import Base R2 GeoModel GeoSpec GeoProofs GeoMain AssocLemmas LaneModel LaneSpec LaneProofs.
Import ListNotations.
Open Scope R_scope.
From Verif Require Import LaneMain.

(** ** C47 *)

(** Both conversions are defined for every parameter. *)
Theorem C47_defined : forall cps x, cps <> [] -> (exists b, beta_from_along_lane cps x = Ok b) /\ (exists a, along_lane_from_beta cps x = Ok a).
Proof. exact C47_defined_pf. Qed.
Print Assumptions C47_defined.

(** Position to parameter and back: exact, except that a position within the
    tolerance of the end of the lane becomes the end of the lane. *)
Theorem C47_position_parameter_position : forall cps x b, cps <> [] -> beta_from_along_lane cps x = Ok b ->
  exists y, along_lane_from_beta cps b = Ok y /\ (y = x \/ (y = get_lane_length cps /\ within_tolerance x (get_lane_length cps))).
Proof. exact C47_position_parameter_position_pf. Qed.
Print Assumptions C47_position_parameter_position.

(** Parameter to position and back, on a lane without repeated control points. *)
Theorem C47_parameter_position_parameter : forall cps b y, proper cps -> along_lane_from_beta cps b = Ok y ->
  exists b', beta_from_along_lane cps y = Ok b' /\ (b' = b \/ (b' = last_beta cps /\ b <= last_beta cps /\ within_tolerance y (get_lane_length cps))).
Proof. exact C47_parameter_position_parameter_pf. Qed.
Print Assumptions C47_parameter_position_parameter.

(** The position grows with the parameter, on every lane; strictly, if the lane has
    no repeated control points. *)
Theorem C47_monotone_position : forall cps b1 b2 y1 y2, cps <> [] -> along_lane_from_beta cps b1 = Ok y1 -> along_lane_from_beta cps b2 = Ok y2 ->
  (b1 <= b2 -> y1 <= y2) /\ (proper cps -> b1 < b2 -> y1 < y2).
Proof. exact C47_monotone_position_pf. Qed.
Print Assumptions C47_monotone_position.

(** The parameter grows with the position, on every lane. *)
Theorem C47_monotone_parameter : forall cps x1 x2 b1 b2, cps <> [] -> beta_from_along_lane cps x1 = Ok b1 -> beta_from_along_lane cps x2 = Ok b2 -> x1 <= x2 -> b1 <= b2.
Proof. exact C47_monotone_parameter_pf. Qed.
Print Assumptions C47_monotone_parameter.

(** The first control point is at 0, the last at the length of the lane. *)
Theorem C47_end_points : forall cps, cps <> [] -> along_lane_from_beta cps 0 = Ok 0 /\ along_lane_from_beta cps (last_beta cps) = Ok (get_lane_length cps) /\
  beta_from_along_lane cps (get_lane_length cps) = Ok (last_beta cps) /\ (proper cps -> ~ within_tolerance 0 (get_lane_length cps) -> beta_from_along_lane cps 0 = Ok 0).
Proof. exact C47_end_points_pf. Qed.
Print Assumptions C47_end_points.

Example C47_ex : proper ex_lane /\ ex_lane <> [] /\ (exists y, along_lane_from_beta ex_lane (3 / 2) = Ok y) /\ ~ within_tolerance 0 (get_lane_length ex_lane).
Proof.
  pose proof ex_lane_proper as P. split; [exact P|]. split; [discriminate|]. split; [apply (C47_defined_pf ex_lane (3 / 2)); discriminate|].
  assert (L : 4 <= get_lane_length ex_lane).
  { unfold get_lane_length. change (get_lane_lengths ex_lane) with (get_distance_SE2 (as_SE2 (mkSE2T (0, 0) 0)) (as_SE2 (mkSE2T (4, 0) 0)) :: get_lane_lengths (tl ex_lane)). rewrite rsum_cons.
    pose proof (rsum_nonneg _ (lengths_nonneg (tl ex_lane))).
    destruct (C75_pose_distance_partial_pf (as_SE2 (mkSE2T (0, 0) 0)) (as_SE2 (mkSE2T (4, 0) 0)) (is_se2_as _) (is_se2_as _)) as (_ & _ & D & _).
    assert (E : norm_between_SE2value (as_SE2 (mkSE2T (0, 0) 0)) (as_SE2 (mkSE2T (4, 0) 0)) = 4).
    { unfold norm_between_SE2value, vnorm, vdot, vsub, translation_from_SE2, as_SE2, SE2_from_translation_angle. cbn [m02 m12 fst snd t_p]. replace ((0 - 4) * (0 - 4) + (0 - 0) * (0 - 0)) with (4 * 4) by ring. apply sqrt_square. lra. }
    lra. }
  unfold within_tolerance. set (x := get_lane_length ex_lane) in *. rewrite Rminus_0_l, Rabs_Ropp, (Rabs_pos_eq x), Rabs_R0, (Rmax_right 0 x) by lra. unfold Rmax. destruct (Rle_dec _ _); lra.
Qed.

(** ** C48 *)

(** One length per pair of consecutive control points, namely the length of the
    constant-curvature arc between them, which is at least their distance; the
    lane length is the sum. *)
Theorem C48_lengths : forall cps, length (get_lane_lengths cps) = (length cps - 1)%nat /\
  (forall i c0 c1, consecutive cps i c0 c1 -> exists l, nth_error (get_lane_lengths cps) i = Some l /\ 0 <= l /\ vdist (t_p (cp_q c0)) (t_p (cp_q c1)) <= l /\
     forall a, moves_at (fun a => translation_from_SE2 (SE2_interpolate (as_SE2 (cp_q c0)) (as_SE2 (cp_q c1)) a)) a l) /\
  get_lane_length cps = fold_right Rplus 0 (get_lane_lengths cps).
Proof. exact C48_lengths_pf. Qed.
Print Assumptions C48_lengths.

(** The lane is at least as long as the straight line between its ends. *)
Theorem C48_detour : forall cps c0 c1, nth_error cps 0 = Some c0 -> nth_error cps (length cps - 1) = Some c1 -> vdist (t_p (cp_q c0)) (t_p (cp_q c1)) <= get_lane_length cps.
Proof. exact C48_detour_pf. Qed.
Print Assumptions C48_detour.

Example C48_ex : consecutive ex_lane 1 (mkCP (mkSE2T (4, 0) 0) 3) (mkCP (mkSE2T (8, 3) 1) 3).
Proof. split; reflexivity. Qed.

(** As long as the lanes do not change, a cached query answers what an uncached one
    would, whatever was asked before, whatever the size of the cache. *)
Theorem C48_cache : forall (K V : Type) (keq : K -> K -> bool) maxsize (f : K -> V) ks, (forall a b, keq a b = true <-> a = b) ->
  answers keq maxsize (map (fun k => (f, k)) ks) [] = map f ks.
Proof. exact C48_cache_pf. Qed.
Print Assumptions C48_cache.

Example C48_cache_ex : answers Nat.eqb 2 (map (fun k => (fun x => x * x, k)%nat) [1; 2; 1; 3; 2; 1]%nat) [] = [1; 4; 1; 9; 4; 1]%nat /\ (forall a b, Nat.eqb a b = true <-> a = b).
Proof. split; [reflexivity|apply Nat.eqb_eq]. Qed.

(** After its control points are changed through get_control_points, a lane keeps
    reporting its old lengths. *)
Theorem C48_stale_cache_refuted : exists (before_ after_ : nat -> lanelet) l1 l2,
  answers Nat.eqb 128 [(fun lane => get_lane_lengths (before_ lane), 0%nat); (fun lane => get_lane_lengths (after_ lane), 0%nat)] [] = [l1; l2] /\ l2 <> get_lane_lengths (after_ 0%nat).
Proof. exact C48_stale_cache_refuted_pf. Qed.
Print Assumptions C48_stale_cache_refuted.

(** ** C49 *)

(** Laterally every position is classified exactly once, and along the lane at most
    once; what is reported is consistent with the coordinates. *)
Theorem C49_classification : forall cps x h lat, cps <> [] -> (forall c, In c cps -> 0 <= cp_r c) ->
  exists lp r, lane_pose cps x h lat = Ok lp /\ 0 <= r /\ lp_lateral_left lp = r /\ lp_lateral_right lp = - r /\
    exactly_one (lp_outside_left lp) (lp_lateral_inside lp) (lp_outside_right lp) /\
    (lp_outside_left lp = true <-> r < lat) /\ (lp_outside_right lp = true <-> lat < - r) /\
    (lp_along_before lp = true <-> x < 0) /\ (lp_along_inside lp = true <-> 0 <= x < get_lane_length cps) /\ (lp_along_after lp = true <-> get_lane_length cps < x) /\
    lp_inside lp = lp_lateral_inside lp && lp_along_inside lp /\
    lp_lateral lp = lat /\ lp_along_lane lp = x /\ lp_relative_heading lp = h /\ (lp_correct_direction lp = true <-> - (PI / 2) <= h <= PI / 2) /\
    lp_distance_from_center lp = Rabs lat /\ (lp_lateral_inside lp = true -> lp_distance_from_left lp + lp_distance_from_right lp = 2 * r).
Proof. exact C49_classification_pf. Qed.
Print Assumptions C49_classification.

(** At the end of the lane a pose is neither before, inside nor after. *)
Theorem C49_end_of_lane_refuted : forall cps h lat, cps <> [] ->
  exists lp, lane_pose cps (get_lane_length cps) h lat = Ok lp /\ lp_along_before lp = false /\ lp_along_inside lp = false /\ lp_along_after lp = false.
Proof. exact C49_end_of_lane_refuted_pf. Qed.
Print Assumptions C49_end_of_lane_refuted.

(** Elsewhere it is exactly one of them. *)
Theorem C49_along_partial : forall cps x h lat lp, lane_pose cps x h lat = Ok lp -> x <> get_lane_length cps -> exactly_one (lp_along_before lp) (lp_along_inside lp) (lp_along_after lp).
Proof. exact C49_along_partial_pf. Qed.
Print Assumptions C49_along_partial.

(** The lane pose of a pose: whatever point of the lane the minimiser settles on,
    lateral offset and relative heading are those of the pose in the frame of that
    point, and the along-lane coordinate is that point's. *)
Theorem C49_of_pose : forall minimize cps q tol, cps <> [] -> is_se2 q ->
  exists lp beta q0 lon, lane_pose_from_SE2_generic minimize cps q tol = Ok lp /\ center_point cps beta = Ok q0 /\ along_lane_from_beta cps beta = Ok (lp_along_lane lp) /\
    q = mmul q0 (SE2_from_translation_angle (lon, lp_lateral lp) (lp_relative_heading lp)) /\ - PI < lp_relative_heading lp <= PI.
Proof. exact C49_of_pose_pf. Qed.
Print Assumptions C49_of_pose.

Example C49_ex : ex_lane <> [] /\ (forall c, In c ex_lane -> 0 <= cp_r c) /\ is_se2 (SE2_from_translation_angle (3, 1) 2).
Proof. split; [discriminate|]. split; [|apply is_se2_of]. intros c [<-|[<-|[<-|[]]]]; cbn; lra. Qed.

(** ** C50 *)

(** Between two control points (ends included) the centre line follows the constant
    speed arc from one to the other, and passes through both; outside it continues
    straight along the first and last heading. *)
Theorem C50_centre_line : forall cps i c0 c1 b, consecutive cps i c0 c1 -> INR i <= b <= INR i + 1 ->
  center_point cps b = Ok (SE2_interpolate (as_SE2 (cp_q c0)) (as_SE2 (cp_q c1)) (b - INR i)).
Proof. exact C50_centre_line_pf. Qed.
Print Assumptions C50_centre_line.

Theorem C50_control_points : forall cps i c, nth_error cps i = Some c -> center_point cps (INR i) = Ok (as_SE2 (cp_q c)) /\ radius cps (INR i) = Ok (cp_r c) /\
  exists t, center_point_fast cps (INR i) = Ok t /\ t_p t = t_p (cp_q c) /\ t_theta t = t_theta (cp_q c).
Proof. exact C50_control_points_pf. Qed.
Print Assumptions C50_control_points.

Theorem C50_radius : forall cps b, cps <> [] ->
  (forall c, nth_error cps 0 = Some c -> b <= 0 -> radius cps b = Ok (cp_r c)) /\
  (forall c, nth_error cps (length cps - 1) = Some c -> last_beta cps <= b -> radius cps b = Ok (cp_r c)) /\
  (forall i c0 c1, consecutive cps i c0 c1 -> INR i <= b <= INR i + 1 -> exists r, radius cps b = Ok r /\
     r = cp_r c0 + (b - INR i) * (cp_r c1 - cp_r c0) /\ Rmin (cp_r c0) (cp_r c1) <= r <= Rmax (cp_r c0) (cp_r c1)).
Proof. exact C50_radius_pf. Qed.
Print Assumptions C50_radius.

(** The fast variant is on the straight segment between the control points. *)
Theorem C50_fast_on_segment : forall cps i c0 c1 b, consecutive cps i c0 c1 -> INR i <= b < INR i + 1 ->
  exists t, center_point_fast cps b = Ok t /\ vdist (t_p (cp_q c0)) (t_p t) = (b - INR i) * vdist (t_p (cp_q c0)) (t_p (cp_q c1)) /\
    vdist (t_p t) (t_p (cp_q c1)) = (1 - (b - INR i)) * vdist (t_p (cp_q c0)) (t_p (cp_q c1)).
Proof. exact C50_fast_on_segment_pf. Qed.
Print Assumptions C50_fast_on_segment.

Example C50_ex : consecutive ex_lane 1 (mkCP (mkSE2T (4, 0) 0) 3) (mkCP (mkSE2T (8, 3) 1) 3) /\ INR 1 <= 3 / 2 < INR 1 + 1 /\ nth_error ex_lane 2 = Some (mkCP (mkSE2T (8, 3) 1) 3).
Proof. split; [split; reflexivity|]. split; [cbn; lra|reflexivity]. Qed.

(** ** C76 *)

(** Inside the lane, moving the along-lane coordinate moves the centre point at unit
    speed. *)
Theorem C76_inside_partial : forall cps i c0 c1 s l, consecutive cps i c0 c1 -> proper cps -> along_lane_from_beta cps (INR i) = Ok s -> nth_error (get_lane_lengths cps) i = Some l ->
  exists curve : R -> vec,
    (forall x, s <= x < s + l -> ~ within_tolerance x (get_lane_length cps) -> exists b q, beta_from_along_lane cps x = Ok b /\ center_point cps b = Ok q /\ curve x = translation_from_SE2 q) /\
    (forall x, moves_at curve x 1).
Proof. exact C76_inside_partial_pf. Qed.
Print Assumptions C76_inside_partial.

Example C76_ex : consecutive ex_lane 0 (mkCP (mkSE2T (0, 0) 0) 2) (mkCP (mkSE2T (4, 0) 0) 3) /\ proper ex_lane /\ along_lane_from_beta ex_lane (INR 0) = Ok 0 /\ (exists l, nth_error (get_lane_lengths ex_lane) 0 = Some l).
Proof. split; [split; reflexivity|]. split; [exact ex_lane_proper|]. split; [apply (C47_end_points_pf ex_lane); discriminate|]. eexists. reflexivity. Qed.

(** Before the start and after the end it does not: one unit of the along-lane
    coordinate is a tenth of a unit of distance.  A point one metre before the start of
    the lane is reported at -10. *)
Theorem C76_outside_refuted : forall cps c, nth_error cps 0 = Some c ->
  exists q, beta_from_along_lane cps (-10) = Ok (-10) /\ center_point cps (-10) = Ok q /\ vdist (translation_from_SE2 q) (t_p (cp_q c)) = 1.
Proof. exact C76_outside_refuted_pf. Qed.
Print Assumptions C76_outside_refuted.

(** ** C77 *)

(** The heading of the fast centre point is that of the exact one as long as the
    headings of the two control points differ by less than pi. *)
Theorem C77_fast_heading_partial : forall cps i c0 c1 b q t, consecutive cps i c0 c1 -> INR i <= b < INR i + 1 -> - PI < t_theta (cp_q c1) - t_theta (cp_q c0) <= PI ->
  center_point cps b = Ok q -> center_point_fast cps b = Ok t -> same_angle (t_theta t) (angle_from_SE2 q).
Proof. exact C77_fast_heading_partial_pf. Qed.
Print Assumptions C77_fast_heading_partial.

Example C77_ex : consecutive ex_lane 1 (mkCP (mkSE2T (4, 0) 0) 3) (mkCP (mkSE2T (8, 3) 1) 3) /\ INR 1 <= 3 / 2 < INR 1 + 1 /\ - PI < 1 - 0 <= PI.
Proof. split; [split; reflexivity|]. split; [cbn; lra|]. pose proof PI2_3_2. lra. Qed.

(** A lane heading west: consecutive control points with headings just below pi
    and just above -pi.  Half-way the fast centre point faces east. *)
Theorem C77_fast_heading_refuted : exists cps q t, center_point cps (1 / 2) = Ok q /\ center_point_fast cps (1 / 2) = Ok t /\
  (forall c, In c cps -> - PI < t_theta (cp_q c) <= PI /\ cos (t_theta (cp_q c)) < 0) /\ cos (t_theta t) = 1 /\ cos (angle_from_SE2 q) = -1.
Proof. exact C77_fast_heading_refuted_pf. Qed.
Print Assumptions C77_fast_heading_refuted.

(** ** C78 *)

(** A lane built from border vertices has its borders there: the left vertex is at
    half the width to the left of the control point, the right one to the right. *)
Theorem C78_borders : forall left right center cps i c l r m, from_vertices left right center = Ok cps -> nth_error cps i = Some c ->
  nth_error left i = Some l -> nth_error right i = Some r -> nth_error center i = Some m -> m = ((fst l + fst r) / 2, (snd l + snd r) / 2) -> l <> r ->
  SE2_apply_T2 (as_SE2 (cp_q c)) (0, cp_r c) = l /\ SE2_apply_T2 (as_SE2 (cp_q c)) (0, - cp_r c) = r /\ t_p (cp_q c) = m /\ 2 * cp_r c = vdist l r.
Proof. exact C78_borders_pf. Qed.
Print Assumptions C78_borders.

(** One control point per centre vertex; fewer border vertices: IndexError. *)
Theorem C78_lengths : forall left right center,
  ((length center <= length left)%nat -> (length center <= length right)%nat -> exists cps, from_vertices left right center = Ok cps /\ length cps = length center) /\
  ((length left < length center)%nat \/ (length right < length center)%nat -> from_vertices left right center = Err PyIndexError).
Proof. exact C78_lengths_pf. Qed.
Print Assumptions C78_lengths.

Example C78_ex : exists cps, from_vertices [(0, 1); (5, 1)] [(0, -1); (5, -3)] [(0, 0); (5, -1)] = Ok cps /\ ((0, 0) : vec) = ((0 + 0) / 2, (1 + -1) / 2) /\ ((0, 1) : vec) <> (0, -1).
Proof. eexists. split; [reflexivity|]. split; [f_equal; field|]. intro E. injection E. lra. Qed.

(** ** C79 *)

(** is_inside_from_T2value tells that the position is within the half width of a
    centre point of the lane. *)
Theorem C79_inside_sound : forall minimize cps p tol, cps <> [] -> is_inside_from_T2value minimize cps p tol = Ok true ->
  exists beta t r, 0 <= beta <= last_beta cps /\ center_point_fast cps beta = Ok t /\ radius cps beta = Ok r /\ vdist (t_p t) p <= r.
Proof. exact C79_inside_sound_pf. Qed.
Print Assumptions C79_inside_sound.

(** The two tests of being inside a lane disagree at its end, whatever exact
    minimiser is used: the position (4, 0) is on the centre line of a straight lane of
    half width 2. *)
Theorem C79_tests_disagree_refuted : exists cps (p : vec), cps <> [] /\
  forall minimize : minimizer, (forall f br tol, (exists x, forall y, f x <= f y) -> forall y, f (minimize f br tol) <= f y) ->
  is_inside_from_T2value minimize cps p 0 = Ok true /\ exists lp, lane_pose_from_SE2_generic minimize cps (SE2_from_translation_angle p 0) 0 = Ok lp /\ lp_lateral lp = 0 /\ lp_inside lp = false.
Proof. exact C79_tests_disagree_refuted_pf. Qed.
Print Assumptions C79_tests_disagree_refuted.

(** ** C80 *)

(** The outline of a lane: with n segments and m points on each, n m points on the right
    border from the start to the end, then n m points on the left border back to the
    start.  The points number k from either end of the outline face each other across
    the centre line, at its half width; the first is at the start of the lane and the
    last at its end. *)
Theorem C80_outline : forall cps m num, cps <> [] -> (forall c, In c cps -> 0 <= cp_r c) -> num = ((length cps - 1) * m)%nat -> (2 <= num)%nat ->
  exists outline, lane_profile cps m = Ok outline /\ length outline = (2 * num)%nat /\
    forall k, (k < num)%nat -> exists beta q r a b, center_point cps beta = Ok q /\ radius cps beta = Ok r /\ 0 <= beta <= last_beta cps /\
      (k = 0%nat -> beta = 0) /\ (k = (num - 1)%nat -> beta = last_beta cps) /\ beta * INR (num - 1) = INR k * last_beta cps /\
      nth_error outline k = Some a /\ nth_error outline (2 * num - 1 - k) = Some b /\
      SE2_apply_T2 q (0, - r) = a /\ SE2_apply_T2 q (0, r) = b /\ vdist a (translation_from_SE2 q) = r /\ vdist b (translation_from_SE2 q) = r.
Proof. exact C80_outline_pf. Qed.
Print Assumptions C80_outline.

(** With a single point the outline has only the start of the lane, with none it is
    empty. *)
Theorem C80_short_outlines : forall cps m, cps <> [] ->
  (((length cps - 1) * m)%nat = 0%nat -> lane_profile cps m = Ok []) /\
  (((length cps - 1) * m)%nat = 1%nat -> exists q r, center_point cps 0 = Ok q /\ radius cps 0 = Ok r /\ lane_profile cps m = Ok [SE2_apply_T2 q (0, - r); SE2_apply_T2 q (0, r)]).
Proof. exact C80_short_outlines_pf. Qed.
Print Assumptions C80_short_outlines.

Example C80_ex : ex_lane <> [] /\ (forall c, In c ex_lane -> 0 <= cp_r c) /\ ((length ex_lane - 1) * 5)%nat = 10%nat.
Proof. split; [discriminate|]. split; [|reflexivity]. intros c [<-|[<-|[<-|[]]]]; cbn; lra. Qed.
