(** Lemmas on goals. *)
From Coq Require Import String Reals Lra Psatz List Bool ZArith Lia Arith.
From Verif Require Import Base R2 GeoModel GeoSpec GeoProofs GeoMain LaneModel LaneSpec LaneProofs LaneMain DataModel DataSpec EvalModel EvalSpec GoalModel GoalSpec.
Import ListNotations.
Open Scope R_scope.

Lemma pose_of_state st p th : state_at st p th -> pose_of st = Ok (SE2_from_translation_angle p th).
Proof.
  intros (X & Y & P & N). unfold pose_of, extract_pose_from_state, getnum. unfold has in *. rewrite X, Y, P, N. destruct p. reflexivity.
Qed.
Lemma tr_angle p th : translation_from_SE2 (SE2_from_translation_angle p th) = p.
Proof. destruct p. reflexivity. Qed.

Lemma ahead_left_0 p th : ahead_left p th 0 0 = p.
Proof. destruct p. unfold ahead_left. cbn [fst snd]. f_equal; ring. Qed.
Lemma ahead_left_apply p th s lat : SE2_apply_T2 (SE2_from_translation_angle p th) (s, lat) = ahead_left p th s lat.
Proof. unfold SE2_apply_T2, SE2_from_translation_angle, ahead_left. cbn [m00 m01 m02 m10 m11 m12 fst snd]. f_equal; ring. Qed.
Lemma ahead_left_add p th s lat s' lat' : ahead_left (ahead_left p th s lat) th s' lat' = ahead_left p th (s + s') (lat + lat').
Proof. unfold ahead_left. cbn [fst snd]. f_equal; ring. Qed.
Lemma ahead_left_step p th s d : mkSE2T (ahead_left p th (s + d) 0) th = mkSE2T (vadd (ahead_left p th s 0) (vscale d (cos th, sin th))) th.
Proof. f_equal. unfold ahead_left, vadd, vscale. cbn [fst snd]. f_equal; ring. Qed.
Lemma ahead_left_dist p th s lat s' lat' : vdist (ahead_left p th s lat) (ahead_left p th s' lat') = sqrt ((s - s') ^ 2 + (lat - lat') ^ 2).
Proof.
  unfold vdist, vnorm. f_equal. unfold vdot, vsub, ahead_left. cbn [fst snd]. pose proof (sin2_cos2 th) as T. unfold Rsqr in T.
  transitivity (((s - s') ^ 2 + (lat - lat') ^ 2) * (sin th * sin th + cos th * cos th)); [ring|rewrite T; ring].
Qed.
Lemma ahead_left_surj p th q : exists s lat, q = ahead_left p th s lat.
Proof.
  exists (vdot (vsub q p) (cos th, sin th)), (vcross (cos th, sin th) (vsub q p)). unfold ahead_left, vdot, vcross, vsub. destruct p as [a b], q as [c d]. cbn [fst snd].
  pose proof (sin2_cos2 th) as T. unfold Rsqr in T. f_equal.
  - transitivity (a + (c - a) * (sin th * sin th + cos th * cos th)); [rewrite T; ring|ring].
  - transitivity (b + (d - b) * (sin th * sin th + cos th * cos th)); [rewrite T; ring|ring].
Qed.
Lemma across p th s w t : vadd (ahead_left p th s w) (vscale t (vsub (ahead_left p th s (- w)) (ahead_left p th s w))) = ahead_left p th s (w - 2 * t * w).
Proof. unfold ahead_left, vadd, vscale, vsub. cbn [fst snd]. f_equal; ring. Qed.
Lemma abs_sqrt x y : Rabs x <= sqrt (x ^ 2 + y ^ 2).
Proof. rewrite <- sqrt_Rsqr_abs; apply sqrt_le_1_alt; unfold Rsqr; nra. Qed.

Lemma abs_bounds x r : Rabs x <= r -> - r <= x <= r.
Proof. intro H. pose proof (Rle_abs x). pose proof (Rle_abs (- x)) as H2. rewrite Rabs_Ropp in H2. lra. Qed.

(** Being within a distance of a segment across a lane. *)
Lemma within_across p th s w r s' lat' : 0 <= w -> within (ahead_left p th s w) (ahead_left p th s (- w)) r (ahead_left p th s' lat') -> Rabs (s' - s) <= r /\ Rabs lat' <= w + r.
Proof.
  intros W (t & T & D). rewrite across, ahead_left_dist in D. split.
  - pose proof (abs_sqrt (s' - s) (lat' - (w - 2 * t * w))). lra.
  - pose proof (abs_sqrt (lat' - (w - 2 * t * w)) (s' - s)) as H. rewrite Rplus_comm in H. assert (Rabs (w - 2 * t * w) <= w) by (apply Rabs_le; nra).
    pose proof (Rabs_triang (lat' - (w - 2 * t * w)) (w - 2 * t * w)) as H2. replace (lat' - (w - 2 * t * w) + (w - 2 * t * w)) with lat' in H2 by ring. lra.
Qed.
Lemma across_within p th s w r s' lat' : Rabs (s' - s) < r -> Rabs lat' <= w -> strictly_within (ahead_left p th s w) (ahead_left p th s (- w)) r (ahead_left p th s' lat').
Proof.
  intros S L. pose proof (Rabs_pos lat'). destruct (Req_dec w 0) as [->|W].
  - exists 0. rewrite across, ahead_left_dist. split; [lra|]. assert (lat' = 0) as -> by (apply abs_bounds in L; lra).
    replace ((s' - s) ^ 2 + (0 - (0 - 2 * 0 * 0)) ^ 2) with (Rsqr (s' - s)) by (unfold Rsqr; ring). rewrite sqrt_Rsqr_abs. exact S.
  - assert (WP : 0 < w) by lra. apply abs_bounds in L. exists ((w - lat') / (2 * w)). rewrite across, ahead_left_dist. split.
    + assert (H2 : 0 < / (2 * w)) by (apply Rinv_0_lt_compat; lra). unfold Rdiv. split; [apply Rmult_le_pos; lra|]. apply Rmult_le_reg_r with (2 * w); [lra|]. rewrite Rmult_assoc, Rinv_l by lra. lra.
    + replace (lat' - (w - 2 * ((w - lat') / (2 * w)) * w)) with 0 by (field; lra). replace ((s' - s) ^ 2 + 0 ^ 2) with (Rsqr (s' - s)) by (unfold Rsqr; ring). rewrite sqrt_Rsqr_abs. exact S.
Qed.

(** *** Evenly spaced straight lanes *)
Section Even.
Variables (p : vec) (th d : R) (n : nat) (w : R).
Hypothesis D : 0 < d.
Hypothesis N : (1 <= n)%nat.
Let lane := even_lane p th d n w.
Definition ectrl (i : nat) : ctrl := mkCP (mkSE2T (ahead_left p th (INR i * d) 0) th) w.
Lemma ev_nth i : (i <= n)%nat -> nth_error lane i = Some (ectrl i).
Proof.
  intro H. unfold lane, even_lane. erewrite map_nth_error; [reflexivity|]. rewrite (nth_error_nth' _ 0%nat) by (rewrite seq_length; lia). rewrite seq_nth by lia. reflexivity.
Qed.
Lemma ev_length : length lane = S n.
Proof. unfold lane, even_lane. rewrite map_length, seq_length. reflexivity. Qed.
Lemma ev_ne : lane <> [].
Proof. intro H. pose proof ev_length. rewrite H in *. discriminate. Qed.
Lemma ev_lb : last_beta lane = INR n.
Proof. unfold last_beta. rewrite ev_length, S_INR. ring. Qed.
Definition earc (b : R) : R := if Rlt_dec b 0 then b / 10 else if Rlt_dec b (INR n) then b * d else INR n * d + (b - INR n) / 10.
Lemma ev_step i : as_SE2 (cp_q (ectrl (S i))) = mmul (as_SE2 (cp_q (ectrl i))) (SE2_from_translation_angle (d, 0) 0).
Proof.
  cbn [cp_q ectrl]. rewrite S_INR. replace ((INR i + 1) * d) with (INR i * d + d) by ring. unfold as_SE2. cbn [t_p t_theta]. rewrite se2_mul, ahead_left_apply, ahead_left_add. f_equal; [f_equal|]; ring.
Qed.
Lemma ev_floor b : ~ b < 0 -> b < INR n -> exists i a, (i < n)%nat /\ 0 <= a < 1 /\ b = INR i + a.
Proof.
  intros B B1. destruct (floor_decomp b ltac:(lra)) as (i & a & -> & A & _). exists i, a. split; [|auto]. apply INR_lt. lra.
Qed.
Lemma ev_center b : center_point lane b = Ok (SE2_from_translation_angle (ahead_left p th (earc b) 0) th).
Proof.
  unfold earc. destruct (Rlt_dec b 0) as [B|B].
  - destruct (cp_neg lane (ectrl 0) b (ev_nth 0 ltac:(lia)) B) as (E & _). rewrite E, interp_ahead. unfold ectrl. cbn [cp_q t_p t_theta INR]. rewrite Rmult_0_l, ahead_left_0. do 2 f_equal. unfold ahead_left, vadd, vscale. cbn [fst snd]. f_equal; ring.
  - destruct (Rlt_dec b (INR n)) as [B1|B1].
    + destruct (ev_floor b B B1) as (i & a & I & A & ->). destruct (cp_mid lane i (ectrl i) (ectrl (S i)) a (ev_nth i ltac:(lia)) (ev_nth (S i) ltac:(lia)) A) as (E & _). rewrite E, ev_step, interp_straight. unfold ectrl. cbn [cp_q t_p t_theta]. do 2 f_equal. unfold ahead_left, vadd, vscale. cbn [fst snd]. f_equal; ring.
    + destruct (cp_after lane (ectrl n) b) as (E & _); [rewrite ev_length; replace (S n - 1)%nat with n by lia; apply ev_nth; lia|rewrite ev_lb; lra|].
      rewrite E, interp_ahead, ev_lb. unfold ectrl. cbn [cp_q t_p t_theta]. do 2 f_equal. unfold ahead_left, vadd, vscale. cbn [fst snd]. f_equal; ring.
Qed.
Lemma ev_radius b : radius lane b = Ok w.
Proof.
  destruct (Rlt_dec b 0) as [B|B].
  - destruct (cp_neg lane (ectrl 0) b (ev_nth 0 ltac:(lia)) B) as (_ & E & _). exact E.
  - destruct (Rlt_dec b (INR n)) as [B1|B1].
    + destruct (ev_floor b B B1) as (i & a & I & A & ->). destruct (cp_mid lane i (ectrl i) (ectrl (S i)) a (ev_nth i ltac:(lia)) (ev_nth (S i) ltac:(lia)) A) as (_ & E & _). rewrite E. unfold ectrl. cbn [cp_r]. f_equal. ring.
    + destruct (cp_after lane (ectrl n) b) as (_ & E & _); [rewrite ev_length; replace (S n - 1)%nat with n by lia; apply ev_nth; lia|rewrite ev_lb; lra|]. exact E.
Qed.
Lemma ev_lengths i : (i < n)%nat -> nth_error (get_lane_lengths lane) i = Some d.
Proof.
  intro I. rewrite (lengths_nth lane i (ectrl i) (ectrl (S i))) by (apply ev_nth; lia). f_equal. rewrite ev_step.
  unfold get_distance_SE2. rewrite <- mmul_assoc, se2_inv_l, mmul_id_l by apply is_se2_as.
  replace (SE2_from_translation_angle (d, 0) 0) with (SE2_exp (mkA (d, 0) 0)).
  - rewrite log_exp by (cbn [ang]; pose proof PI_RGT_0; lra). cbn [lin]. unfold vnorm, vdot. cbn [fst snd]. replace (d * d + 0 * 0) with (d * d) by ring. apply sqrt_square. lra.
  - unfold SE2_exp, jacA, jacB. cbn [ang lin fst snd]. destruct (Req_EM_T 0 0) as [_|X]; [|contradiction X; reflexivity]. f_equal. f_equal; ring.
Qed.
Lemma ev_psum i : (i <= n)%nat -> psum (get_lane_lengths lane) i = INR i * d.
Proof.
  induction i as [|i IH]; intro I; [rewrite psum_0; cbn; ring|]. rewrite (psum_S _ i d) by (apply ev_lengths; lia). rewrite IH by lia. rewrite S_INR. ring.
Qed.
Lemma ev_total : rsum (get_lane_lengths lane) = INR n * d.
Proof. rewrite <- psum_all, lengths_length, ev_length. replace (S n - 1)%nat with n by lia. apply ev_psum. lia. Qed.
Definition ealong (b : R) : R := if Rlt_dec b 0 then b else if Rlt_dec b (INR n) then b * d else INR n * d + (b - INR n).
Lemma ev_along b : along_lane_from_beta lane b = Ok (ealong b).
Proof.
  unfold ealong. destruct (Rlt_dec b 0) as [B|B]; [apply along_neg; exact B|]. destruct (Rlt_dec b (INR n)) as [B1|B1].
  - destruct (ev_floor b B B1) as (i & a & I & A & ->). rewrite (along_in lane ev_ne i a d) by (try apply ev_lengths; auto; lia). rewrite ev_psum by lia. f_equal. ring.
  - assert (NL : length (get_lane_lengths lane) = n) by (rewrite lengths_length, ev_length; lia). rewrite (along_after lane ev_ne) by (rewrite NL; lra). rewrite ev_total, NL. reflexivity.
Qed.
Lemma INRn : 1 <= INR n.
Proof. apply (le_INR 1). exact N. Qed.
Lemma earc_surj s : exists b, earc b = s.
Proof.
  pose proof INRn as P. exists (if Rlt_dec s 0 then 10 * s else if Rlt_dec s (INR n * d) then s / d else INR n + 10 * (s - INR n * d)).
  destruct (Rlt_dec s 0) as [A|A]; [unfold earc; destruct (Rlt_dec (10 * s) 0); lra|]. destruct (Rlt_dec s (INR n * d)) as [B|B].
  - assert (0 <= s / d) by (apply Rmult_le_pos; [lra|apply Rlt_le, Rinv_0_lt_compat; lra]). assert (s / d * d = s) by (field; lra). assert (s / d < INR n) by nra.
    unfold earc. destruct (Rlt_dec (s / d) 0); [lra|]. destruct (Rlt_dec (s / d) (INR n)); lra.
  - unfold earc. destruct (Rlt_dec (INR n + 10 * (s - INR n * d)) 0); [lra|]. destruct (Rlt_dec (INR n + 10 * (s - INR n * d)) (INR n)); lra.
Qed.
(** The along-lane coordinate of the point [s] metres along the centre line. *)
Definition eprog (s : R) : R := if Rlt_dec s 0 then 10 * s else if Rlt_dec s (INR n * d) then s else INR n * d + 10 * (s - INR n * d).
Lemma earc_prog b : eprog (earc b) = ealong b.
Proof.
  pose proof INRn. unfold eprog, earc, ealong. assert (0 < INR n * d) by (apply Rmult_lt_0_compat; lra). destruct (Rlt_dec b 0).
  - destruct (Rlt_dec (b / 10) 0); lra.
  - destruct (Rlt_dec b (INR n)).
    + destruct (Rlt_dec (b * d) 0); [nra|]. destruct (Rlt_dec (b * d) (INR n * d)); nra.
    + destruct (Rlt_dec (INR n * d + (b - INR n) / 10) 0); [lra|]. destruct (Rlt_dec (INR n * d + (b - INR n) / 10) (INR n * d)); lra.
Qed.
Variable m : minimizer.
Hypothesis M : exact_minimizer m.
Variables (s lat th2 : R).
Let q := ahead_left p th s lat.
Lemma ev_delta b : get_delta q (center_point lane b) = (earc b - s) ^ 2 + lat ^ 2.
Proof.
  rewrite ev_center. unfold get_delta. rewrite tr_angle. fold (vdist q (ahead_left p th (earc b) 0)). unfold q. rewrite ahead_left_dist. rewrite <- (Rsqr_pow2 (sqrt _)), Rsqr_sqrt by (pose proof (pow2_ge_0 (s - earc b)); pose proof (pow2_ge_0 (lat - 0)); lra). ring.
Qed.
Lemma ev_closest tol : exists b, find_along_lane_closest_point m lane q tol None = Ok (b, SE2_from_translation_angle (ahead_left p th s 0) th) /\ along_lane_from_beta lane b = Ok (eprog s).
Proof.
  unfold find_along_lane_closest_point. unfold item at 1. rewrite (ev_nth 0) by lia. cbn [LaneModel.bind]. set (f := fun b => get_delta q (center_point lane b)). set (b := m f _ tol).
  assert (E : earc b = s).
  { destruct (earc_surj s) as (b0 & E0). assert (X : exists x, forall y, f x <= f y).
    { exists b0. intro y. unfold f. rewrite !ev_delta, E0. pose proof (pow2_ge_0 (earc y - s)). replace ((s - s) ^ 2) with 0 by ring. lra. }
    pose proof (M f (-1, INR (length lane)) tol X b0) as H. fold b in H. unfold f in H. rewrite !ev_delta, E0 in H. replace ((s - s) ^ 2) with 0 in H by ring. assert (Z : (earc b - s) ^ 2 <= 0) by lra. assert (Z2 : (earc b - s) * (earc b - s) <= 0) by lra. nra. }
  exists b. rewrite ev_center, E. cbn [LaneModel.bind]. split; [reflexivity|]. rewrite ev_along, <- earc_prog, E. reflexivity.
Qed.
Lemma ev_lane_pose tol : exists lp, lane_pose_from_SE2_generic m lane (SE2_from_translation_angle q th2) tol = Ok lp /\ lp_along_lane lp = eprog s.
Proof.
  unfold lane_pose_from_SE2_generic. rewrite tr_angle. destruct (ev_closest tol) as (b & E1 & E2). rewrite E1. cbn [LaneModel.bind fst snd]. rewrite E2. cbn [LaneModel.bind].
  destruct (C60_relative_pose_pf (SE2_from_translation_angle (ahead_left p th s 0) th) (SE2_from_translation_angle q th2) (is_se2_as (mkSE2T (ahead_left p th s 0) th))) as (rel & Er & _). rewrite Er. cbn [LaneModel.bind].
  destruct (C47_defined_pf lane (eprog s) ev_ne) as ((b' & Eb) & _). unfold lane_pose. rewrite Eb. cbn [LaneModel.bind]. rewrite ev_center. cbn [LaneModel.bind]. rewrite ev_radius. cbn [LaneModel.bind]. eexists. split; reflexivity.
Qed.
End Even.
