(** Straight lanes with an exact minimiser. *)
From Coq Require Import String Reals Lra Psatz List Bool ZArith Lia Arith QArith Qcanon.
From Verif Require Import Base Num SeqModel R2 GeoModel GeoSpec GeoProofs GeoMain LaneModel LaneSpec LaneProofs LaneMain EvalModel EvalSpec.
Import ListNotations.
Open Scope R_scope.

(** Distance from the start to the centre point of parameter [b]. *)
Definition sarc (l b : R) : R := if Rlt_dec b 0 then b / 10 else if Rlt_dec b 1 then b * l else l + (b - 1) / 10.
(** along_lane of a position at distance [s] from the start. *)
Definition salong (l s : R) : R := if Rlt_dec s 0 then 10 * s else if Rlt_dec s l then s else l + 10 * (s - l).

Section Straight.
Variables (p : vec) (th l w : R).
Hypothesis L : 0 < l.
Let d : lanelet := straight p th l w.
Lemma st_lb : last_beta d = 1.
Proof. unfold last_beta. cbn. lra. Qed.
Lemma st_end : as_SE2 (mkSE2T (vadd p (vscale l (cos th, sin th))) th) = mmul (as_SE2 (mkSE2T p th)) (SE2_from_translation_angle (l, 0) 0).
Proof.
  unfold as_SE2. rewrite se2_mul. cbn [t_p t_theta]. replace (th + 0) with th by ring. f_equal. unfold SE2_apply_T2, SE2_from_translation_angle, vadd, vscale. cbn [m00 m01 m02 m10 m11 m12 fst snd]. f_equal; ring.
Qed.
Lemma st_center b : center_point d b = Ok (SE2_from_translation_angle (vadd p (vscale (sarc l b) (cos th, sin th))) th).
Proof.
  unfold sarc. destruct (Rlt_dec b 0) as [B|B].
  - destruct (cp_neg d (mkCP (mkSE2T p th) w) b eq_refl B) as (E & _). rewrite E, interp_ahead. reflexivity.
  - destruct (Rlt_dec b 1) as [B1|B1].
    + destruct (cp_mid d 0 (mkCP (mkSE2T p th) w) (mkCP (mkSE2T (vadd p (vscale l (cos th, sin th))) th) w) b eq_refl eq_refl ltac:(lra)) as (E & _).
      change (INR 0) with 0 in E. rewrite Rplus_0_l in E. rewrite E. cbn [cp_q]. rewrite st_end, interp_straight. reflexivity.
    + destruct (cp_after d (mkCP (mkSE2T (vadd p (vscale l (cos th, sin th))) th) w) b eq_refl ltac:(rewrite st_lb; lra)) as (E & _).
      rewrite E, interp_ahead, st_lb. cbn [t_p t_theta cp_q]. do 2 f_equal. unfold vadd, vscale. cbn [fst snd]. f_equal; ring.
Qed.
Lemma st_radius b : radius d b = Ok w.
Proof.
  destruct (Rlt_dec b 0) as [B|B].
  - destruct (cp_neg d (mkCP (mkSE2T p th) w) b eq_refl B) as (_ & E & _). exact E.
  - destruct (Rlt_dec b 1) as [B1|B1].
    + destruct (cp_mid d 0 (mkCP (mkSE2T p th) w) (mkCP (mkSE2T (vadd p (vscale l (cos th, sin th))) th) w) b eq_refl eq_refl ltac:(lra)) as (_ & E & _).
      change (INR 0) with 0 in E. rewrite Rplus_0_l in E. rewrite E. cbn [cp_r]. f_equal. ring.
    + destruct (cp_after d (mkCP (mkSE2T (vadd p (vscale l (cos th, sin th))) th) w) b eq_refl ltac:(rewrite st_lb; lra)) as (_ & E & _). exact E.
Qed.
Lemma st_length : get_lane_length d = l.
Proof.
  unfold get_lane_length, d, straight. cbn [get_lane_lengths cp_q]. unfold rsum. cbn [fold_left]. rewrite Rplus_0_l. rewrite st_end.
  unfold get_distance_SE2. rewrite <- mmul_assoc, se2_inv_l, mmul_id_l by apply is_se2_as.
  replace (SE2_from_translation_angle (l, 0) 0) with (SE2_exp (mkA (l, 0) 0)).
  - rewrite log_exp by (cbn [ang]; pose proof PI_RGT_0; lra). cbn [lin]. unfold vnorm, vdot. cbn [fst snd]. replace (l * l + 0 * 0) with (l * l) by ring. apply sqrt_square. lra.
  - unfold SE2_exp, jacA, jacB. cbn [ang lin fst snd]. destruct (Req_EM_T 0 0) as [_|N]; [|contradiction N; reflexivity]. f_equal. f_equal; ring.
Qed.
Lemma st_along b : along_lane_from_beta d b = Ok (if Rlt_dec b 0 then b else if Rlt_dec b 1 then l * b else l + (b - 1)).
Proof.
  pose proof st_length as SL. unfold get_lane_length in SL.
  destruct (Rlt_dec b 0) as [B|B]; [apply along_neg; exact B|]. destruct (Rlt_dec b 1) as [B1|B1].
  - pose proof SL as SL2. unfold d, straight in SL2. cbn [get_lane_lengths] in SL2. unfold rsum in SL2. cbn [fold_left] in SL2. rewrite Rplus_0_l in SL2.
    pose proof (along_in d ltac:(discriminate) 0 b l) as E. change (INR 0) with 0 in E. rewrite Rplus_0_l in E. rewrite E; [|unfold d, straight; cbn [get_lane_lengths nth_error]; f_equal; exact SL2|lra].
    unfold psum. cbn [firstn]. unfold rsum. cbn [fold_left]. f_equal. ring.
  - rewrite (along_after d ltac:(discriminate)) by (cbn; lra). rewrite SL. reflexivity.
Qed.
Lemma sarc_inj a b : sarc l a = sarc l b -> a = b.
Proof.
  unfold sarc. destruct (Rlt_dec a 0), (Rlt_dec b 0); try lra; destruct (Rlt_dec a 1), (Rlt_dec b 1); try lra; try nra.
  all: intro H; apply (Rmult_eq_reg_r l); lra.
Qed.
Lemma sarc_surj s : sarc l (if Rlt_dec s 0 then 10 * s else if Rlt_dec s l then s / l else 1 + 10 * (s - l)) = s.
Proof.
  destruct (Rlt_dec s 0) as [A|A]; [unfold sarc; destruct (Rlt_dec (10 * s) 0); lra|]. destruct (Rlt_dec s l) as [B|B].
  - assert (0 <= s / l) by (apply Rmult_le_pos; [lra|apply Rlt_le, Rinv_0_lt_compat; lra]). assert (s / l * l = s) by (field; lra). assert (s / l < 1) by nra.
    unfold sarc. destruct (Rlt_dec (s / l) 0); [lra|]. destruct (Rlt_dec (s / l) 1); lra.
  - unfold sarc. destruct (Rlt_dec (1 + 10 * (s - l)) 0); [lra|]. destruct (Rlt_dec (1 + 10 * (s - l)) 1); lra.
Qed.

Variables (p2 : vec) (th2 : R).
Let s := vdot (vsub p2 p) (cos th, sin th).
Let lat := vcross (cos th, sin th) (vsub p2 p).
Lemma st_delta b : get_delta p2 (center_point d b) = (sarc l b - s) ^ 2 + lat ^ 2.
Proof.
  rewrite st_center. unfold get_delta. rewrite <- (Rsqr_pow2 (vnorm _)). unfold vnorm. rewrite Rsqr_sqrt by (unfold vdot; nra).
  unfold s, lat, translation_from_SE2, SE2_from_translation_angle, vdot, vcross, vsub, vadd, vscale. cbn [m02 m12 fst snd]. set (g := sarc l b). pose proof (sin2_cos2 th) as T. unfold Rsqr in T.
  set (c := cos th) in *. set (z := sin th) in *. destruct p2 as [a b2], p as [e f]. cbn [fst snd] in *.
  transitivity (g ^ 2 * (z * z + c * c) - 2 * g * ((a - e) * c + (b2 - f) * z) + ((a - e) ^ 2 + (b2 - f) ^ 2) * (z * z + c * c)); [rewrite T; nra|]. rewrite T. replace (((a - e) ^ 2 + (b2 - f) ^ 2) * 1) with (((a - e) ^ 2 + (b2 - f) ^ 2) * (z * z + c * c)) by (rewrite T; ring). ring.
Qed.

Variable m : minimizer.
Hypothesis M : exact_minimizer m.
Lemma st_min br tol : sarc l (m (fun b => get_delta p2 (center_point d b)) br tol) = s.
Proof.
  set (f := fun b => get_delta p2 (center_point d b)). set (b0 := if Rlt_dec s 0 then 10 * s else if Rlt_dec s l then s / l else 1 + 10 * (s - l)).
  assert (F0 : f b0 = lat ^ 2) by (unfold f; rewrite st_delta; unfold b0; rewrite sarc_surj; ring).
  assert (X : exists x, forall y, f x <= f y). { exists b0. intro y. rewrite F0. unfold f. rewrite st_delta. pose proof (pow2_ge_0 (sarc l y - s)). lra. }
  pose proof (M f br tol X b0) as H. rewrite F0 in H. unfold f at 1 in H. rewrite st_delta in H. nra.
Qed.
Lemma st_closest tol : exists b, find_along_lane_closest_point m d p2 tol None = Ok (b, SE2_from_translation_angle (vadd p (vscale s (cos th, sin th))) th) /\ along_lane_from_beta d b = Ok (salong l s).
Proof.
  unfold find_along_lane_closest_point. unfold item at 1. cbn [nth_error straight bind d]. fold d. set (b := m _ _ _). pose proof (st_min (-1, INR (length d)) tol) as E. fold b in E. exists b. rewrite st_center, E. cbn [bind]. split; [reflexivity|].
  rewrite st_along. f_equal. rewrite <- E. unfold salong, sarc. destruct (Rlt_dec b 0).
  - destruct (Rlt_dec (b / 10) 0); lra.
  - destruct (Rlt_dec b 1).
    + destruct (Rlt_dec (b * l) 0); [nra|]. destruct (Rlt_dec (b * l) l); nra.
    + destruct (Rlt_dec (l + (b - 1) / 10) 0); [lra|]. destruct (Rlt_dec (l + (b - 1) / 10) l); lra.
Qed.
Lemma st_lane_pose tol : exists lp, lane_pose_from_SE2_generic m d (SE2_from_translation_angle p2 th2) tol = Ok lp /\
  lp_along_lane lp = salong l s /\ lp_lateral lp = lat /\ lp_distance_from_center lp = Rabs lat /\ lp_lateral_inside lp = leb (- w) lat && leb lat w /\
  lp_along_inside lp = leb 0 (salong l s) && ltb (salong l s) l /\ lp_along_before lp = ltb (salong l s) 0 /\ lp_along_after lp = ltb l (salong l s) /\
  lp_relative_heading lp = angle_from_SE2 (SE2_from_translation_angle (0, 0) (th2 - th)).
Proof.
  unfold lane_pose_from_SE2_generic. fold d.
  destruct (st_closest tol) as (b & E1 & E2). change (translation_from_SE2 (SE2_from_translation_angle p2 th2)) with (fst p2, snd p2). rewrite <- surjective_pairing, E1. cbn [bind fst snd]. rewrite E2. cbn [bind].
  set (base := SE2_from_translation_angle (vadd p (vscale s (cos th, sin th))) th).
  destruct (C60_relative_pose_pf base (SE2_from_translation_angle p2 th2) (is_se2_as (mkSE2T (vadd p (vscale s (cos th, sin th))) th))) as (rel & Er & _ & U & _). rewrite Er. cbn [bind].
  assert (rel = SE2_from_translation_angle (0, lat) (th2 - th)) as ->.
  { symmetry. apply U. unfold base. rewrite se2_mul. f_equal; [|ring]. unfold SE2_apply_T2, SE2_from_translation_angle. cbn [m00 m01 m02 m10 m11 m12 fst snd].
    unfold s, lat, vdot, vcross, vsub, vadd, vscale. cbn [fst snd]. pose proof (sin2_cos2 th) as T. unfold Rsqr in T. set (c := cos th) in *. set (z := sin th) in *. destruct p2 as [a b2], p as [e f]. cbn [fst snd].
    f_equal.
    - transitivity ((a - e) * (z * z + c * c) + e); [ring|rewrite T; ring].
    - transitivity ((b2 - f) * (z * z + c * c) + f); [ring|rewrite T; ring]. }
  destruct (C47_defined_pf d (salong l s) ltac:(discriminate)) as ((b' & Eb) & _).
  unfold lane_pose. rewrite Eb. cbn [bind]. rewrite st_center. cbn [bind]. rewrite st_radius. cbn [bind]. rewrite st_length.
  eexists. split; [reflexivity|]. cbn [lp_along_lane lp_lateral lp_distance_from_center lp_lateral_inside lp_along_inside lp_along_before lp_along_after lp_relative_heading translation_from_SE2 SE2_from_translation_angle m12 snd].
  split; [reflexivity|]. split; [reflexivity|]. split; [reflexivity|]. split; [reflexivity|]. split; [reflexivity|]. split; [reflexivity|]. split; [reflexivity|]. reflexivity.
Qed.
End Straight.
