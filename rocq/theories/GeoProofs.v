(** Lemmas on planar poses. *)
From Coq Require Import Reals Lra Psatz List.
From Verif Require Import Base R2 GeoModel GeoSpec.
Import ListNotations.
Open Scope R_scope.

Lemma pose_at_iff q p th : pose_at q p th <-> q = SE2_from_translation_angle p th.
Proof.
  destruct q as [a b x c d y], p as [px py]. unfold pose_at, SE2_from_translation_angle. cbn [m00 m01 m02 m10 m11 m12 fst snd]. split.
  - intro H. pose proof (H 0 0) as H0. pose proof (H 1 0) as H1. pose proof (H 0 1) as H2.
    unfold vadd, vscale in *. cbn [fst snd] in *. injection H0 as A1 A2. injection H1 as B1 B2. injection H2 as C1 C2. f_equal; lra.
  - intros [= -> -> -> -> -> ->] u v. unfold vadd, vscale. cbn [fst snd]. f_equal; ring.
Qed.

Lemma cs1 t : cos t * cos t + sin t * sin t = 1.
Proof. pose proof (sin2_cos2 t) as H. unfold Rsqr in H. lra. Qed.

Lemma se2_mul p1 t1 p2 t2 :
  mmul (SE2_from_translation_angle p1 t1) (SE2_from_translation_angle p2 t2) =
  SE2_from_translation_angle (SE2_apply_T2 (SE2_from_translation_angle p1 t1) p2) (t1 + t2).
Proof.
  unfold mmul, SE2_from_translation_angle, SE2_apply_T2. cbn [m00 m01 m02 m10 m11 m12 fst snd]. rewrite cos_plus, sin_plus. f_equal; ring.
Qed.
Lemma se2_inv p t : SE2_inverse (SE2_from_translation_angle p t) =
  SE2_from_translation_angle (- (cos t * fst p + sin t * snd p), - (- sin t * fst p + cos t * snd p)) (- t).
Proof. unfold SE2_inverse, SE2_from_translation_angle. cbn [m00 m01 m02 m10 m11 m12 fst snd]. rewrite cos_neg, sin_neg. f_equal; ring. Qed.
Lemma se2_inv_l q : is_se2 q -> mmul (SE2_inverse q) q = mid.
Proof.
  intros (p & t & H). apply pose_at_iff in H as ->. unfold mmul, SE2_inverse, SE2_from_translation_angle, mid. cbn [m00 m01 m02 m10 m11 m12 fst snd].
  pose proof (cs1 t). f_equal; first [ring | lra].
Qed.
Lemma se2_inv_r q : is_se2 q -> mmul q (SE2_inverse q) = mid.
Proof.
  intros (p & t & H). apply pose_at_iff in H as ->. unfold mmul, SE2_inverse, SE2_from_translation_angle, mid. cbn [m00 m01 m02 m10 m11 m12 fst snd].
  pose proof (cs1 t) as C. destruct p as [x y]. cbn [fst snd].
  f_equal; first [ring | lra | apply Rminus_diag_uniq; idtac].
  - replace (_ - 0) with (x * (1 - (cos t * cos t + sin t * sin t))) by ring. rewrite C. ring.
  - replace (_ - 0) with (y * (1 - (cos t * cos t + sin t * sin t))) by ring. rewrite C. ring.
Qed.
Lemma mmul_assoc a b c : mmul (mmul a b) c = mmul a (mmul b c).
Proof. unfold mmul. cbn [m00 m01 m02 m10 m11 m12]. f_equal; ring. Qed.
Lemma mmul_id_l a : mmul mid a = a.
Proof. destruct a as [a0 a1 a2 a3 a4 a5]. unfold mmul, mid. cbn [m00 m01 m02 m10 m11 m12]. f_equal; ring. Qed.
Lemma mmul_id_r a : mmul a mid = a.
Proof. destruct a as [a0 a1 a2 a3 a4 a5]. unfold mmul, mid. cbn [m00 m01 m02 m10 m11 m12]. f_equal; ring. Qed.
Lemma is_se2_mul a b : is_se2 a -> is_se2 b -> is_se2 (mmul a b).
Proof.
  intros (p & t & H) (p' & t' & H'). apply pose_at_iff in H as ->. apply pose_at_iff in H' as ->. rewrite se2_mul. eexists; eexists. apply pose_at_iff. reflexivity.
Qed.
Lemma is_se2_inv a : is_se2 a -> is_se2 (SE2_inverse a).
Proof. intros (p & t & H). apply pose_at_iff in H as ->. rewrite se2_inv. eexists; eexists. apply pose_at_iff. reflexivity. Qed.
Lemma is_se2_of p t : is_se2 (SE2_from_translation_angle p t).
Proof. exists p, t. apply pose_at_iff. reflexivity. Qed.

(** ** Angle *)
Lemma vnorm_cs t : vnorm (cos t, sin t) = 1.
Proof. unfold vnorm, vdot. cbn. rewrite cs1. apply sqrt_1. Qed.
Lemma angle_cs p t : cos (angle_from_SE2 (SE2_from_translation_angle p t)) = cos t /\ sin (angle_from_SE2 (SE2_from_translation_angle p t)) = sin t.
Proof.
  unfold angle_from_SE2, SE2_from_translation_angle. cbn [m00 m10]. pose proof (atan2_spec (sin t) (cos t)) as [A B]. rewrite vnorm_cs in A, B. lra.
Qed.
Lemma angle_range q : - PI < angle_from_SE2 q <= PI.
Proof. apply atan2_range. Qed.
Lemma angle_id p t : - PI < t <= PI -> angle_from_SE2 (SE2_from_translation_angle p t) = t.
Proof. intro H. destruct (angle_cs p t) as [A B]. apply angle_unique; [apply angle_range|exact H|exact A|exact B]. Qed.
Lemma as_from q : is_se2 q -> SE2_from_translation_angle (translation_from_SE2 q) (angle_from_SE2 q) = q.
Proof.
  intros (p & t & H). apply pose_at_iff in H as ->. destruct (angle_cs p t) as [A B]. set (a := angle_from_SE2 _) in *.
  unfold SE2_from_translation_angle, translation_from_SE2. cbn [m00 m01 m02 m10 m11 m12 fst snd]. rewrite A, B. reflexivity.
Qed.

(** ** Inverse, relative pose *)
Lemma minv_se2 q : is_se2 q -> minv q = Ok (SE2_inverse q).
Proof.
  intros (p & t & H). apply pose_at_iff in H as ->. unfold minv, SE2_inverse, SE2_from_translation_angle. cbn [m00 m01 m02 m10 m11 m12].
  pose proof (cs1 t) as C. assert (D : cos t * cos t - - sin t * sin t = 1) by lra. rewrite D.
  destruct (Req_EM_T 1 0) as [E|E]; [lra|]. f_equal. f_equal; field.
Qed.

(** ** Exponential and logarithm *)
Lemma jac_nz w : - PI < w <= PI -> 0 < jacA w * jacA w + jacB w * jacB w.
Proof.
  intro H. unfold jacA, jacB. destruct (Req_EM_T w 0) as [E|E]; [lra|].
  assert (C : cos w < 1).
  { destruct (Rlt_dec (cos w) 1) as [L|L]; [exact L|exfalso]. pose proof (COS_bound w). assert (C1 : cos w = 1) by lra.
    apply E. pose proof PI_RGT_0. apply angle_unique; [exact H|lra|rewrite cos_0; exact C1|]. rewrite sin_0. pose proof (cs1 w). nra. }
  replace (sin w / w * (sin w / w) + (1 - cos w) / w * ((1 - cos w) / w)) with (2 * (1 - cos w) / (w * w)).
  - apply Rmult_lt_0_compat; [lra|]. apply Rinv_0_lt_compat. nra.
  - pose proof (cs1 w) as S. assert (S2 : sin w * sin w = 1 - cos w * cos w) by lra.
    replace (sin w / w * (sin w / w)) with ((sin w * sin w) / (w * w)) by (field; exact E). rewrite S2. field. exact E.
Qed.
Lemma exp_log q : is_se2 q -> SE2_exp (SE2_log q) = q.
Proof.
  intro H. pose proof (jac_nz _ (angle_range q)) as D. unfold SE2_exp, SE2_log. cbn [lin ang fst snd].
  set (w := angle_from_SE2 q) in *. etransitivity; [|apply as_from; exact H]. fold w. f_equal. unfold translation_from_SE2. f_equal; field; lra.
Qed.
Lemma jac_scaled w : jacA w * w = sin w /\ jacB w * w = 1 - cos w.
Proof.
  unfold jacA, jacB. destruct (Req_EM_T w 0) as [->|E]; [rewrite sin_0, cos_0; split; ring|]. split; field; exact E.
Qed.
Lemma log_exp v : - PI < ang v <= PI -> SE2_log (SE2_exp v) = v.
Proof.
  intro H. unfold SE2_log, SE2_exp. cbn [lin ang]. rewrite angle_id by exact H. set (w := ang v) in *.
  pose proof (jac_nz w H) as D. destruct v as [[vx vy] w']. cbn [lin ang fst snd] in *. subst w. unfold SE2_from_translation_angle. cbn [m02 m12 fst snd].
  f_equal. f_equal; field; lra.
Qed.
Lemma exp_zero : SE2_exp (mkA (0, 0) 0) = mid.
Proof. unfold SE2_exp, SE2_from_translation_angle, mid. cbn [lin ang fst snd]. rewrite cos_0, sin_0. f_equal; ring. Qed.
Lemma is_se2_exp v : is_se2 (SE2_exp v).
Proof. apply is_se2_of. Qed.

(** The norm of the linear part of the logarithm. *)
Lemma log_lin_norm q : is_se2 q ->
  vnorm (lin (SE2_log q)) * sqrt (jacA (angle_from_SE2 q) * jacA (angle_from_SE2 q) + jacB (angle_from_SE2 q) * jacB (angle_from_SE2 q)) = vnorm (translation_from_SE2 q).
Proof.
  intro H. pose proof (jac_nz _ (angle_range q)) as D. set (w := angle_from_SE2 q) in *. unfold vnorm.
  rewrite <- sqrt_mult; [|apply vdot_self_nonneg|lra]. f_equal. unfold SE2_log, translation_from_SE2. fold w. cbn [lin fst snd]. unfold vdot. cbn [fst snd].
  field. lra.
Qed.
Lemma jac_even w : jacA (- w) * jacA (- w) + jacB (- w) * jacB (- w) = jacA w * jacA w + jacB w * jacB w.
Proof.
  unfold jacA, jacB. destruct (Req_EM_T (- w) 0), (Req_EM_T w 0); try lra. rewrite cos_neg, sin_neg. field. assumption.
Qed.
Lemma jac_cos w : - PI < w <= PI -> (w <> 0 -> (jacA w * jacA w + jacB w * jacB w) * (w * w) = 2 * (1 - cos w)).
Proof.
  intros H E. pose proof (jac_scaled w) as [A B].
  replace ((jacA w * jacA w + jacB w * jacB w) * (w * w)) with ((jacA w * w) * (jacA w * w) + (jacB w * w) * (jacB w * w)) by ring.
  rewrite A, B. pose proof (cs1 w). nra.
Qed.
Lemma angle_inv q : is_se2 q -> angle_from_SE2 (SE2_inverse q) = - angle_from_SE2 q \/ (angle_from_SE2 q = PI /\ angle_from_SE2 (SE2_inverse q) = PI).
Proof.
  intro H. pose proof (angle_range q) as R. set (w := angle_from_SE2 q) in *.
  assert (K : exists P, SE2_inverse q = SE2_from_translation_angle P (- w)) by (eexists; rewrite <- (as_from q H) at 1; apply se2_inv).
  destruct K as [P ->]. destruct (Req_dec w PI) as [E|E].
  - right. split; [exact E|]. pose proof PI_RGT_0. destruct (angle_cs P (- w)) as [A B]. rewrite cos_neg, E in A. rewrite sin_neg, E, sin_PI in B.
    apply angle_unique; [apply angle_range|lra|rewrite E; exact A|rewrite sin_PI, E, B; lra].
  - left. apply angle_id. lra.
Qed.

Lemma dist_inv q : is_se2 q -> vnorm (lin (SE2_log (SE2_inverse q))) = vnorm (lin (SE2_log q)).
Proof.
  intro H. pose proof (log_lin_norm q H) as A. pose proof (log_lin_norm _ (is_se2_inv q H)) as B.
  pose proof (jac_nz _ (angle_range q)) as D. set (w := angle_from_SE2 q) in *.
  assert (J : jacA (angle_from_SE2 (SE2_inverse q)) * jacA (angle_from_SE2 (SE2_inverse q)) + jacB (angle_from_SE2 (SE2_inverse q)) * jacB (angle_from_SE2 (SE2_inverse q)) = jacA w * jacA w + jacB w * jacB w).
  { destruct (angle_inv q H) as [E|[E1 E2]]; [rewrite E; apply jac_even|]. fold w in E1. rewrite E2, E1. reflexivity. }
  rewrite J in B. assert (S : 0 < sqrt (jacA w * jacA w + jacB w * jacB w)) by (apply sqrt_lt_R0; exact D).
  assert (T : vnorm (translation_from_SE2 (SE2_inverse q)) = vnorm (translation_from_SE2 q)).
  { destruct H as (p & t & H). apply pose_at_iff in H as ->. unfold vnorm. f_equal. unfold translation_from_SE2, SE2_inverse, SE2_from_translation_angle, vdot. cbn [m00 m01 m02 m10 m11 m12 fst snd].
    pose proof (cs1 t) as C. destruct p as [x y]; cbn [fst snd].
    replace (- (cos t * x + sin t * y) * - (cos t * x + sin t * y) + - (- sin t * x + cos t * y) * - (- sin t * x + cos t * y))
      with ((cos t * cos t + sin t * sin t) * (x * x + y * y)) by ring. rewrite C. ring. }
  rewrite T in B. rewrite <- A in B. apply Rmult_eq_reg_r in B; [exact B|lra].
Qed.

(** ** Interpolation *)
Lemma interpolate_angle q0 q1 al : is_se2 q0 -> is_se2 q1 ->
  exists p, SE2_interpolate q0 q1 al = SE2_from_translation_angle p (angle_from_SE2 q0 + al * angle_from_SE2 (mmul (SE2_inverse q0) q1)).
Proof.
  intros H0 H1. unfold SE2_interpolate. set (v := SE2_log _).
  assert (K : mmul q0 (SE2_exp (alg_scale al v)) = mmul (SE2_from_translation_angle (translation_from_SE2 q0) (angle_from_SE2 q0)) (SE2_exp (alg_scale al v)))
    by (rewrite as_from by exact H0; reflexivity).
  cbv zeta. rewrite K. unfold SE2_exp. rewrite se2_mul. eexists. f_equal.
Qed.
Lemma alg_scale_scale a b v : alg_scale a (alg_scale b v) = alg_scale (a * b) v.
Proof. unfold alg_scale. destruct v as [[x y] w]. unfold vscale. cbn [lin ang fst snd]. f_equal; [f_equal|]; ring. Qed.
Lemma alg_scale_1 v : alg_scale 1 v = v.
Proof. destruct v as [[x y] w]. unfold alg_scale, vscale. cbn [lin ang fst snd]. f_equal; [f_equal|]; ring. Qed.
Lemma alg_scale_0 v : alg_scale 0 v = mkA (0, 0) 0.
Proof. destruct v as [[x y] w]. unfold alg_scale, vscale. cbn [lin ang fst snd]. f_equal; [f_equal|]; ring. Qed.
Lemma inv_mul a b : is_se2 a -> is_se2 b -> SE2_inverse (mmul a b) = mmul (SE2_inverse b) (SE2_inverse a).
Proof.
  intros Ha Hb. pose proof (is_se2_mul a b Ha Hb) as Hab.
  rewrite <- (mmul_id_r (SE2_inverse (mmul a b))). rewrite <- (se2_inv_r a Ha).
  rewrite <- (mmul_id_r a) at 2. rewrite <- (se2_inv_r b Hb). rewrite <- (mmul_assoc a b). rewrite !mmul_assoc. rewrite <- (mmul_assoc a b).
  rewrite <- mmul_assoc. rewrite se2_inv_l by exact Hab. apply mmul_id_l.
Qed.
