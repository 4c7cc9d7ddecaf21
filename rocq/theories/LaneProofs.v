(** Lemmas on lanes. *)
From Coq Require Import Reals Lra Psatz List Bool ZArith Lia Arith.
From Verif Require Import Base R2 GeoModel GeoSpec GeoProofs LaneModel.
Import ListNotations.
Open Scope R_scope.

Lemma ltb_iff x y : ltb x y = true <-> x < y.
Proof. unfold ltb. destruct (Rlt_dec x y); split; intro H; try reflexivity; try assumption; [discriminate|contradiction]. Qed.
Lemma leb_iff x y : leb x y = true <-> x <= y.
Proof. unfold leb. destruct (Rle_dec x y); split; intro H; try reflexivity; try assumption; [discriminate|contradiction]. Qed.
Lemma ltb_false x y : ltb x y = false <-> y <= x.
Proof. unfold ltb. destruct (Rlt_dec x y); split; intro H; try reflexivity; try discriminate; lra. Qed.
Lemma leb_false x y : leb x y = false <-> y < x.
Proof. unfold leb. destruct (Rle_dec x y); split; intro H; try reflexivity; try discriminate; lra. Qed.

(** ** floor *)
Lemma ifloor_spec x : IZR (ifloor x) <= x < IZR (ifloor x) + 1.
Proof. unfold ifloor. pose proof (base_Int_part x). lra. Qed.
Lemma ifloor_unique x z : IZR z <= x < IZR z + 1 -> ifloor x = z.
Proof.
  intro H. pose proof (ifloor_spec x) as K. assert (A : IZR (ifloor x) < IZR (z + 1)) by (rewrite plus_IZR; lra).
  assert (B : IZR z < IZR (ifloor x + 1)) by (rewrite plus_IZR; lra). apply lt_IZR in A. apply lt_IZR in B. lia.
Qed.
Lemma ifloor_nat i x : INR i <= x < INR i + 1 -> ifloor x = Z.of_nat i.
Proof. intro H. apply ifloor_unique. rewrite <- INR_IZR_INZ. exact H. Qed.
Lemma ifloor_neg x : x < 0 -> (ifloor x < 0)%Z.
Proof. intro H. pose proof (ifloor_spec x). apply lt_IZR. lra. Qed.
(** A non-negative number is a natural number plus a fraction. *)
Lemma floor_decomp x : 0 <= x -> exists i a, x = INR i + a /\ 0 <= a < 1 /\ ifloor x = Z.of_nat i.
Proof.
  intro H. pose proof (ifloor_spec x) as K. assert (Z : (0 <= ifloor x)%Z) by (apply Z.lt_succ_r, lt_IZR; rewrite succ_IZR; lra).
  exists (Z.to_nat (ifloor x)), (x - IZR (ifloor x)). rewrite INR_IZR_INZ, Z2Nat.id by exact Z. split; [ring|]. split; [lra|reflexivity].
Qed.

(** ** Sums *)
Lemma rsum_acc l a : fold_left Rplus l a = a + rsum l.
Proof. unfold rsum. revert a. induction l as [|x l IH]; intro a; cbn [fold_left]; [ring|]. rewrite (IH (a + x)), (IH (0 + x)). ring. Qed.
Lemma rsum_cons x l : rsum (x :: l) = x + rsum l.
Proof. unfold rsum at 1. cbn [fold_left]. rewrite rsum_acc. ring. Qed.
Lemma rsum_app l m : rsum (l ++ m) = rsum l + rsum m.
Proof. induction l as [|x l IH]; cbn [app]; [unfold rsum at 2; cbn; ring|]. rewrite !rsum_cons, IH. ring. Qed.
Lemma rsum_nonneg l : Forall (Rle 0) l -> 0 <= rsum l.
Proof. induction 1 as [|x l Hx _ IH]; [unfold rsum; cbn; lra|]. rewrite rsum_cons. lra. Qed.
Definition psum (l : list R) (i : nat) : R := rsum (firstn i l).
Lemma psum_0 l : psum l 0 = 0.
Proof. reflexivity. Qed.
Lemma psum_S l i x : nth_error l i = Some x -> psum l (S i) = psum l i + x.
Proof.
  revert i. induction l as [|y l IH]; intros [|i] H; cbn [nth_error] in H; try discriminate.
  - injection H as ->. unfold psum. cbn [firstn]. rewrite rsum_cons. unfold rsum. cbn. ring.
  - unfold psum in *. cbn [firstn]. rewrite !rsum_cons. cbn [firstn] in IH. rewrite (IH i H). ring.
Qed.
Lemma psum_all l : psum l (length l) = rsum l.
Proof. unfold psum. rewrite firstn_all. reflexivity. Qed.
Lemma psum_mono l i j : Forall (Rle 0) l -> (i <= j)%nat -> psum l i <= psum l j.
Proof.
  intros H L. unfold psum. rewrite <- (firstn_skipn i (firstn j l)), rsum_app, firstn_firstn, (Nat.min_l i j L).
  assert (0 <= rsum (skipn i (firstn j l))); [|lra]. apply rsum_nonneg. apply Forall_forall. intros x I. rewrite Forall_forall in H. apply H.
  assert (J : In x (firstn j l)) by (rewrite <- (firstn_skipn i (firstn j l)); apply in_or_app; right; exact I).
  rewrite <- (firstn_skipn j l). apply in_or_app. left. exact J.
Qed.
Lemma psum_bounds l i : Forall (Rle 0) l -> (i <= length l)%nat -> 0 <= psum l i <= rsum l.
Proof. intros H L. rewrite <- (psum_all l). split; [rewrite <- (psum_0 l)|]; apply psum_mono; try assumption; lia. Qed.

(** ** Lengths *)
Lemma lengths_length cps : length (get_lane_lengths cps) = (length cps - 1)%nat.
Proof. induction cps as [|c [|d l] IH]; [reflexivity|reflexivity|]. cbn [get_lane_lengths length] in *. rewrite IH. lia. Qed.
Lemma lengths_nonneg cps : Forall (Rle 0) (get_lane_lengths cps).
Proof. induction cps as [|c [|d l] IH]; cbn [get_lane_lengths]; [constructor|constructor|]. constructor; [apply vnorm_nonneg|exact IH]. Qed.
Lemma lengths_nth cps i c0 c1 : nth_error cps i = Some c0 -> nth_error cps (S i) = Some c1 ->
  nth_error (get_lane_lengths cps) i = Some (get_distance_SE2 (as_SE2 (cp_q c0)) (as_SE2 (cp_q c1))).
Proof.
  revert i. induction cps as [|c [|d l] IH]; intros i H0 H1.
  - destruct i; discriminate.
  - destruct i; [discriminate|]. destruct i; discriminate.
  - destruct i as [|i]; cbn [get_lane_lengths].
    + cbn [nth_error] in *. injection H0 as ->. injection H1 as ->. reflexivity.
    + cbn [nth_error]. apply IH; assumption.
Qed.
Lemma last_beta_INR cps : cps <> [] -> last_beta cps = INR (length cps - 1).
Proof. intro H. destruct cps; [contradiction|]. unfold last_beta. cbn [length]. rewrite S_INR, Nat.sub_succ, Nat.sub_0_r. ring. Qed.

(** ** along_lane_from_beta *)
Section Along.
Variable cps : lanelet.
Hypothesis NE : cps <> [].
Let ls := get_lane_lengths cps.
Let n := length ls.

Lemma last_n : last_beta cps = INR n.
Proof. unfold n, ls. rewrite lengths_length. apply last_beta_INR. exact NE. Qed.

Lemma along_neg b : b < 0 -> along_lane_from_beta cps b = Ok b.
Proof. intro H. unfold along_lane_from_beta. rewrite (proj2 (ltb_iff b 0) H). reflexivity. Qed.
Lemma along_after b : INR n <= b -> along_lane_from_beta cps b = Ok (rsum ls + (b - INR n)).
Proof.
  intro H. pose proof (pos_INR n). unfold along_lane_from_beta. rewrite (proj2 (ltb_false b 0)) by lra. rewrite last_n. rewrite (proj2 (leb_iff _ _) H). reflexivity.
Qed.
Lemma along_in i a l : nth_error ls i = Some l -> 0 <= a < 1 -> along_lane_from_beta cps (INR i + a) = Ok (psum ls i + l * a).
Proof.
  intros Hl Ha. pose proof (pos_INR i). assert (Hi : (i < n)%nat) by (apply nth_error_Some; rewrite Hl; discriminate).
  assert (Hn : INR i + 1 <= INR n) by (rewrite <- S_INR; apply le_INR; lia).
  unfold along_lane_from_beta. rewrite (proj2 (ltb_false _ 0)) by lra. rewrite last_n, (proj2 (leb_false _ _)) by lra.
  rewrite (ifloor_nat i) by lra. rewrite Nat2Z.id. unfold item. fold ls. rewrite Hl. cbn [bind]. rewrite <- INR_IZR_INZ. unfold psum. f_equal. f_equal. f_equal. ring.
Qed.

(** Every parameter is in one of three ranges. *)
Lemma beta_cases b : b < 0 \/ INR n <= b \/ exists i a l, nth_error ls i = Some l /\ 0 <= a < 1 /\ b = INR i + a.
Proof.
  destruct (Rlt_dec b 0) as [L|L]; [left; exact L|]. destruct (Rle_dec (INR n) b) as [L2|L2]; [right; left; exact L2|]. right. right.
  destruct (floor_decomp b) as (i & a & E & Ha & _); [lra|]. assert (Hi : (i < n)%nat) by (apply INR_lt; lra).
  destruct (nth_error ls i) as [l|] eqn:El; [|apply nth_error_None in El; unfold n in Hi; lia]. exists i, a, l. split; [exact El|]. split; [exact Ha|exact E].
Qed.

(** ** beta_from_along_lane *)
Lemma beta_loop_spec x m : psum ls m <= x < rsum ls -> (m <= n)%nat ->
  exists i l, nth_error ls i = Some l /\ psum ls i <= x < psum ls i + l /\ beta_loop ls x (seq m (n - m)) = Ok (INR i + (x - psum ls i) / l).
Proof.
  remember (n - m)%nat as k eqn:Ek. revert m Ek. induction k as [|k IH]; intros m Ek Hx Hm.
  - assert (m = n) as -> by lia. unfold n in Hx. rewrite psum_all in Hx. lra.
  - cbn [seq beta_loop]. fold (psum ls m) (psum ls (S m)). destruct (nth_error ls m) as [l|] eqn:El; [|apply nth_error_None in El; unfold n in *; lia].
    pose proof (psum_S ls m l El) as ES. rewrite (proj2 (leb_iff _ _) (proj1 Hx)). destruct (ltb x (psum ls (S m))) eqn:Lt; cbn [andb].
    + apply ltb_iff in Lt. exists m, l. split; [exact El|]. split; [lra|]. unfold item. rewrite El. reflexivity.
    + apply ltb_false in Lt. apply (IH (S m)); [lia|lra|lia].
Qed.
Lemma beta_neg x : x < 0 -> beta_from_along_lane cps x = Ok x.
Proof. intro H. unfold beta_from_along_lane. rewrite (proj2 (ltb_iff x 0) H). reflexivity. Qed.
Lemma S_nonneg : 0 <= rsum ls.
Proof. apply rsum_nonneg, lengths_nonneg. Qed.
Lemma beta_after x : rsum ls < x -> beta_from_along_lane cps x = Ok (INR n + (x - rsum ls)).
Proof.
  intro H. pose proof S_nonneg. unfold beta_from_along_lane. rewrite (proj2 (ltb_false x 0)) by lra. fold ls. rewrite (proj2 (ltb_iff _ _) H), last_n. reflexivity.
Qed.
Lemma beta_close x : 0 <= x <= rsum ls -> isclose x (rsum ls) = true -> beta_from_along_lane cps x = Ok (INR n).
Proof.
  intros H C. unfold beta_from_along_lane. rewrite (proj2 (ltb_false x 0)) by lra. fold ls. rewrite (proj2 (ltb_false (rsum ls) x)) by lra. rewrite C, last_n. reflexivity.
Qed.
Lemma isclose_refl x : isclose x x = true.
Proof. unfold isclose. apply leb_iff. rewrite Rminus_eq_0, Rabs_R0. eapply Rle_trans; [|apply Rmax_r]. lra. Qed.
Lemma beta_in x : 0 <= x <= rsum ls -> isclose x (rsum ls) = false ->
  exists i l, nth_error ls i = Some l /\ psum ls i <= x < psum ls i + l /\ beta_from_along_lane cps x = Ok (INR i + (x - psum ls i) / l).
Proof.
  intros H C. assert (x < rsum ls) as L. { destruct (Rle_lt_or_eq_dec x (rsum ls)) as [|E]; [lra|assumption|]. rewrite E, isclose_refl in C. discriminate. }
  destruct (beta_loop_spec x 0) as (i & l & A & B & D); [rewrite psum_0; lra|lia|]. exists i, l. split; [exact A|]. split; [exact B|].
  unfold beta_from_along_lane. rewrite (proj2 (ltb_false x 0)) by lra. fold ls. rewrite (proj2 (ltb_false (rsum ls) x)) by lra. rewrite C.
  rewrite (proj2 (leb_iff _ _)) by lra. rewrite (proj2 (ltb_iff _ _)) by lra. cbn [andb]. rewrite Nat.sub_0_r in D.
  replace (length cps - 1)%nat with n by (unfold n, ls; apply lengths_length). exact D.
Qed.
End Along.

(** ** Interpolation *)
Lemma interp_0 q0 q1 : SE2_interpolate q0 q1 0 = q0.
Proof. unfold SE2_interpolate. cbv zeta. rewrite alg_scale_0, exp_zero, mmul_id_r. reflexivity. Qed.
Lemma is_se2_as t : is_se2 (as_SE2 t).
Proof. apply is_se2_of. Qed.
Lemma interp_1 q0 q1 : is_se2 q0 -> is_se2 q1 -> SE2_interpolate q0 q1 1 = q1.
Proof.
  intros H0 H1. unfold SE2_interpolate. cbv zeta. rewrite alg_scale_1, exp_log by (apply is_se2_mul; [apply is_se2_inv; exact H0|exact H1]).
  rewrite <- mmul_assoc, se2_inv_r by exact H0. apply mmul_id_l.
Qed.
Lemma is_se2_interp q0 q1 a : is_se2 q0 -> is_se2 (SE2_interpolate q0 q1 a).
Proof. intro H. apply is_se2_mul; [exact H|apply is_se2_exp]. Qed.

(** Moving ahead on the tangent. *)
Lemma interp_straight d t a : SE2_interpolate (as_SE2 t) (mmul (as_SE2 t) (SE2_from_translation_angle (d, 0) 0)) a = SE2_from_translation_angle (vadd (t_p t) (vscale (a * d) (cos (t_theta t), sin (t_theta t)))) (t_theta t).
Proof.
  unfold SE2_interpolate. cbv zeta. rewrite <- mmul_assoc, se2_inv_l, mmul_id_l by apply is_se2_as.
  assert (E : SE2_log (SE2_from_translation_angle (d, 0) 0) = mkA (d, 0) 0).
  { replace (SE2_from_translation_angle (d, 0) 0) with (SE2_exp (mkA (d, 0) 0)).
    - apply log_exp. cbn [ang]. pose proof PI_RGT_0. lra.
    - unfold SE2_exp. cbn [lin ang fst snd]. f_equal. unfold jacA, jacB. destruct (Req_EM_T 0 0); [|lra]. f_equal; ring. }
  rewrite E. unfold alg_scale, SE2_exp. cbn [lin ang]. rewrite Rmult_0_r. unfold as_SE2. rewrite se2_mul. f_equal; [|ring].
  unfold jacA, jacB. destruct (Req_EM_T 0 0); [|lra]. unfold SE2_apply_T2, SE2_from_translation_angle, vscale, vadd. cbn [m00 m01 m02 m10 m11 m12 fst snd]. f_equal; field.
Qed.

Lemma interp_ahead t a : SE2_interpolate (as_SE2 t) (ahead01 (as_SE2 t)) a = SE2_from_translation_angle (vadd (t_p t) (vscale (a / 10) (cos (t_theta t), sin (t_theta t)))) (t_theta t).
Proof. unfold ahead01. rewrite interp_straight. replace (a * (1 / 10)) with (a / 10) by field. reflexivity. Qed.

(** The curve of SE2_interpolate has constant speed. *)
Lemma jac_curve w : forall a, derivable_pt_lim (fun a => jacA (a * w) * a) a (cos (a * w)) /\ derivable_pt_lim (fun a => jacB (a * w) * a) a (sin (a * w)).
Proof.
  intro a. destruct (Req_dec w 0) as [->|W].
  - rewrite Rmult_0_r, cos_0, sin_0.
    assert (A : forall x, jacA (x * 0) * x = x) by (intro x; rewrite Rmult_0_r; unfold jacA; destruct (Req_EM_T 0 0); lra).
    assert (B : forall x, jacB (x * 0) * x = 0) by (intro x; rewrite Rmult_0_r; unfold jacB; destruct (Req_EM_T 0 0); lra).
    split.
    + intros e He. destruct (derivable_pt_lim_id a e He) as [d Hd]. exists d. intros h H1 H2. rewrite !A. exact (Hd h H1 H2).
    + intros e He. destruct (derivable_pt_lim_const 0 a e He) as [d Hd]. exists d. intros h H1 H2. rewrite !B. exact (Hd h H1 H2).
  - assert (A : forall x, jacA (x * w) * x = sin (x * w) * / w).
    { intro x. destruct (Req_dec x 0) as [->|X]; [rewrite Rmult_0_l, sin_0; ring|]. unfold jacA. destruct (Req_EM_T (x * w) 0) as [E|E]; [apply Rmult_integral in E; lra|]. field. split; assumption. }
    assert (B : forall x, jacB (x * w) * x = (1 - cos (x * w)) * / w).
    { intro x. destruct (Req_dec x 0) as [->|X]; [rewrite Rmult_0_l, cos_0; ring|]. unfold jacB. destruct (Req_EM_T (x * w) 0) as [E|E]; [apply Rmult_integral in E; lra|]. field. split; assumption. }
    assert (L : derivable_pt_lim (fun x => x * w) a w).
    { pose proof (derivable_pt_lim_mult id (fct_cte w) a 1 0 (derivable_pt_lim_id a) (derivable_pt_lim_const w a)) as D. unfold mult_fct, id, fct_cte in D. replace (1 * w + a * 0) with w in D by ring. exact D. }
    split.
    + assert (D : derivable_pt_lim (fun x => sin (x * w) * / w) a (cos (a * w) * w * / w + sin (a * w) * 0)).
      { apply (derivable_pt_lim_mult (fun x => sin (x * w)) (fct_cte (/ w))); [|apply derivable_pt_lim_const]. apply (derivable_pt_lim_comp (fun x => x * w) sin); [exact L|apply derivable_pt_lim_sin]. }
      replace (cos (a * w)) with (cos (a * w) * w * / w + sin (a * w) * 0) by (field; exact W).
      intros e He. destruct (D e He) as [d Hd]. exists d. intros h H1 H2. rewrite !A. exact (Hd h H1 H2).
    + assert (D : derivable_pt_lim (fun x => (1 - cos (x * w)) * / w) a ((0 - - sin (a * w) * w) * / w + (1 - cos (a * w)) * 0)).
      { apply (derivable_pt_lim_mult (fun x => 1 - cos (x * w)) (fct_cte (/ w))); [|apply derivable_pt_lim_const].
        apply (derivable_pt_lim_minus (fct_cte 1) (fun x => cos (x * w))); [apply derivable_pt_lim_const|]. apply (derivable_pt_lim_comp (fun x => x * w) cos); [exact L|apply derivable_pt_lim_cos]. }
      replace (sin (a * w)) with ((0 - - sin (a * w) * w) * / w + (1 - cos (a * w)) * 0) by (field; exact W).
      intros e He. destruct (D e He) as [d Hd]. exists d. intros h H1 H2. rewrite !B. exact (Hd h H1 H2).
Qed.

Lemma lim_ext f g x l : (forall y, f y = g y) -> derivable_pt_lim f x l -> derivable_pt_lim g x l.
Proof. intros E D e He. destruct (D e He) as [d Hd]. exists d. intros h H1 H2. rewrite <- !E. exact (Hd h H1 H2). Qed.
Lemma lim_lin c1 f1 l1 c2 f2 l2 c x : derivable_pt_lim f1 x l1 -> derivable_pt_lim f2 x l2 -> derivable_pt_lim (fun y => c1 * f1 y + c2 * f2 y + c) x (c1 * l1 + c2 * l2).
Proof.
  intros D1 D2. replace (c1 * l1 + c2 * l2) with ((c1 * l1 + c2 * l2) + 0) by ring.
  apply (derivable_pt_lim_plus (fun y => c1 * f1 y + c2 * f2 y) (fct_cte c)); [|apply derivable_pt_lim_const].
  apply (derivable_pt_lim_plus (fun y => c1 * f1 y) (fun y => c2 * f2 y)); apply (derivable_pt_lim_scal); assumption.
Qed.

Lemma interp_speed q0 q1 a : is_se2 q0 -> is_se2 q1 ->
  exists dx dy, derivable_pt_lim (fun a => fst (translation_from_SE2 (SE2_interpolate q0 q1 a))) a dx /\
    derivable_pt_lim (fun a => snd (translation_from_SE2 (SE2_interpolate q0 q1 a))) a dy /\ vnorm (dx, dy) = get_distance_SE2 q0 q1.
Proof.
  intros (p & t & H0) H1. apply pose_at_iff in H0 as ->. unfold get_distance_SE2. set (v := SE2_log (mmul (SE2_inverse (SE2_from_translation_angle p t)) q1)). destruct v as [[lx ly] w] eqn:Ev. cbn [lin].
  destruct (jac_curve w a) as [DA DB].
  assert (E : forall x, SE2_interpolate (SE2_from_translation_angle p t) q1 x = mmul (SE2_from_translation_angle p t) (SE2_exp (alg_scale x (mkA (lx, ly) w)))).
  { intro x. unfold SE2_interpolate. cbv zeta. fold v. rewrite Ev. reflexivity. }
  pose (X := lx * cos (a * w) + - ly * sin (a * w)). pose (Y := lx * sin (a * w) + ly * cos (a * w)).
  exists (cos t * X + - sin t * Y), (sin t * X + cos t * Y).
  assert (FX : derivable_pt_lim (fun x => lx * (jacA (x * w) * x) + - ly * (jacB (x * w) * x) + 0) a X) by (apply lim_lin; assumption).
  assert (FY : derivable_pt_lim (fun x => lx * (jacB (x * w) * x) + ly * (jacA (x * w) * x) + 0) a Y) by (apply lim_lin; assumption).
  split; [|split].
  - eapply lim_ext; [|exact (lim_lin (cos t) _ _ (- sin t) _ _ (fst p) a FX FY)]. intro x. rewrite E.
    unfold SE2_exp, alg_scale, mmul, SE2_from_translation_angle, translation_from_SE2, vscale. cbn [lin ang fst snd m00 m01 m02 m10 m11 m12]. ring.
  - eapply lim_ext; [|exact (lim_lin (sin t) _ _ (cos t) _ _ (snd p) a FX FY)]. intro x. rewrite E.
    unfold SE2_exp, alg_scale, mmul, SE2_from_translation_angle, translation_from_SE2, vscale. cbn [lin ang fst snd m00 m01 m02 m10 m11 m12]. ring.
  - unfold vnorm, vdot. cbn [fst snd]. f_equal. unfold X, Y. pose proof (cs1 t) as C1. pose proof (cs1 (a * w)) as C2.
    set (c := cos t) in *. set (s := sin t) in *. set (c' := cos (a * w)) in *. set (s' := sin (a * w)) in *.
    replace ((c * (lx * c' + - ly * s') + - s * (lx * s' + ly * c')) * (c * (lx * c' + - ly * s') + - s * (lx * s' + ly * c')) +
             (s * (lx * c' + - ly * s') + c * (lx * s' + ly * c')) * (s * (lx * c' + - ly * s') + c * (lx * s' + ly * c')))
      with ((c * c + s * s) * ((c' * c' + s' * s') * (lx * lx + ly * ly))) by ring. rewrite C1, C2. ring.
Qed.

(** ** center_point, radius *)
Lemma cp_neg (cps : lanelet) c b : nth_error cps 0 = Some c -> b < 0 ->
  center_point cps b = Ok (SE2_interpolate (as_SE2 (cp_q c)) (ahead01 (as_SE2 (cp_q c))) b) /\ radius cps b = Ok (cp_r c) /\
  center_point_fast cps b = Ok (lerp (cp_q c) (from_SE2 (ahead01 (as_SE2 (cp_q c)))) b).
Proof.
  intros H L. pose proof (ifloor_neg b L) as F. unfold center_point, radius, center_point_fast, item. apply Z.ltb_lt in F. rewrite F, H. auto.
Qed.
Lemma item_last_nth {A} (l : list A) x : nth_error l (length l - 1) = Some x -> item_last l = Ok x.
Proof.
  intro H. assert (l <> []) as N by (intros ->; discriminate). destruct (exists_last N) as (l' & y & E). subst l.
  rewrite app_length in H. cbn [length] in H. replace (length l' + 1 - 1)%nat with (length l' + 0)%nat in H by lia. rewrite nth_error_app2 in H by lia.
  replace (length l' + 0 - length l')%nat with 0%nat in H by lia. injection H as ->. unfold item_last. rewrite rev_app_distr. reflexivity.
Qed.
Lemma cp_after (cps : lanelet) c b : nth_error cps (length cps - 1) = Some c -> last_beta cps <= b -> 
  center_point cps b = Ok (SE2_interpolate (as_SE2 (cp_q c)) (ahead01 (as_SE2 (cp_q c))) (b - last_beta cps)) /\ radius cps b = Ok (cp_r c) /\
  center_point_fast cps b = Ok (lerp (cp_q c) (from_SE2 (ahead01 (as_SE2 (cp_q c)))) (b - last_beta cps)).
Proof.
  intros H L. assert (N : cps <> []) by (intros ->; discriminate). rewrite (last_beta_INR cps N) in L. pose proof (pos_INR (length cps - 1)).
  destruct (floor_decomp b) as (i & a & E & Ha & F); [lra|]. assert (Hi : (length cps - 1 <= i)%nat).
  { assert (INR (length cps - 1) < INR (i + 1)) as X by (rewrite plus_INR; cbn; lra). apply INR_lt in X. lia. }
  assert (length cps <> 0)%nat by (destruct cps; [contradiction|discriminate]).
  unfold center_point, radius, center_point_fast. rewrite F. rewrite (proj2 (Z.ltb_ge _ _)) by lia. rewrite Z.geb_leb, (proj2 (Z.leb_le _ _)) by lia. rewrite (item_last_nth _ _ H). auto.
Qed.
Lemma cp_mid (cps : lanelet) i c0 c1 a : nth_error cps i = Some c0 -> nth_error cps (S i) = Some c1 -> 0 <= a < 1 ->
  center_point cps (INR i + a) = Ok (SE2_interpolate (as_SE2 (cp_q c0)) (as_SE2 (cp_q c1)) a) /\
  radius cps (INR i + a) = Ok (cp_r c0 * (1 - a) + cp_r c1 * a) /\ center_point_fast cps (INR i + a) = Ok (lerp (cp_q c0) (cp_q c1) a).
Proof.
  intros H0 H1 Ha. assert (L : (S i < length cps)%nat) by (apply nth_error_Some; rewrite H1; discriminate).
  unfold center_point, radius, center_point_fast. rewrite (ifloor_nat i) by lra. rewrite (proj2 (Z.ltb_ge _ _)) by lia. rewrite Z.geb_leb, (proj2 (Z.leb_gt _ _)) by lia.
  rewrite Nat2Z.id, Nat.add_1_r. unfold item. rewrite H0, H1. cbn [bind]. rewrite <- INR_IZR_INZ. replace (INR i + a - INR i) with a by ring. auto.
Qed.
(** All parameters. *)
Lemma cp_cases (cps : lanelet) b : cps <> [] -> b < 0 \/ last_beta cps <= b \/ exists i c0 c1 a, nth_error cps i = Some c0 /\ nth_error cps (S i) = Some c1 /\ 0 <= a < 1 /\ b = INR i + a.
Proof.
  intro N. destruct (beta_cases cps b) as [H|[H|(i & a & l & H1 & H2 & H3)]]; [left; exact H|right; left|right; right].
  - rewrite (last_n cps N). exact H.
  - assert (L : (i < length (get_lane_lengths cps))%nat) by (apply nth_error_Some; rewrite H1; discriminate). rewrite lengths_length in L.
    destruct (nth_error cps i) as [c0|] eqn:E0; [|apply nth_error_None in E0; lia]. destruct (nth_error cps (S i)) as [c1|] eqn:E1; [|apply nth_error_None in E1; lia].
    exists i, c0, c1, a. auto.
Qed.
Lemma first_last (cps : lanelet) : cps <> [] -> exists c c', nth_error cps 0 = Some c /\ nth_error cps (length cps - 1) = Some c'.
Proof.
  intro N. destruct cps as [|c l]; [contradiction|]. exists c. destruct (nth_error (c :: l) (length (c :: l) - 1)) as [c'|] eqn:E; [exists c'; split; reflexivity|].
  apply nth_error_None in E. cbn [length] in E. lia.
Qed.
Lemma cp_defined (cps : lanelet) b : cps <> [] -> exists q r t, center_point cps b = Ok q /\ radius cps b = Ok r /\ center_point_fast cps b = Ok t /\ is_se2 q.
Proof.
  intro N. destruct (first_last cps N) as (c & c' & Hc & Hc'). destruct (cp_cases cps b N) as [H|[H|(i & c0 & c1 & a & H0 & H1 & Ha & ->)]].
  - destruct (cp_neg cps c b Hc H) as (E1 & E2 & E3). do 3 eexists. split; [exact E1|]. split; [exact E2|]. split; [exact E3|]. apply is_se2_interp, is_se2_as.
  - destruct (cp_after cps c' b Hc' H) as (E1 & E2 & E3). do 3 eexists. split; [exact E1|]. split; [exact E2|]. split; [exact E3|]. apply is_se2_interp, is_se2_as.
  - destruct (cp_mid cps i c0 c1 a H0 H1 Ha) as (E1 & E2 & E3). do 3 eexists. split; [exact E1|]. split; [exact E2|]. split; [exact E3|]. apply is_se2_interp, is_se2_as.
Qed.
