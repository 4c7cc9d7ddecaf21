(** Plane vectors and angles over the reals.  General definitions (numpy
    operations on length-2 arrays); nothing specific to the code base. *)
From Coq Require Import Reals Lra Psatz Bool.
Open Scope R_scope.

Definition vec : Type := R * R.
(** a + b, a - b, -a, k * a, np.dot(a, b), np.cross(a, b) on length-2 arrays. *)
Definition vadd (a b : vec) : vec := (fst a + fst b, snd a + snd b).
Definition vsub (a b : vec) : vec := (fst a - fst b, snd a - snd b).
Definition vneg (a : vec) : vec := (- fst a, - snd a).
Definition vscale (k : R) (a : vec) : vec := (k * fst a, k * snd a).
Definition vdot (a b : vec) : R := fst a * fst b + snd a * snd b.
Definition vcross (a b : vec) : R := fst a * snd b - snd a * fst b.
(** np.linalg.norm(a) *)
Definition vnorm (a : vec) : R := sqrt (vdot a a).
(** Rotation by 90 degrees, counter-clockwise. *)
Definition rot90 (a : vec) : vec := (- snd a, fst a).
(** Euclidean distance. *)
Definition vdist (a b : vec) : R := vnorm (vsub a b).

(** np.arctan2(y, x) (without signed zeros). *)
Definition atan2 (y x : R) : R :=
  if Rlt_dec 0 x then atan (y / x)
  else if Rlt_dec x 0 then (if Rle_dec 0 y then atan (y / x) + PI else atan (y / x) - PI)
  else if Rlt_dec 0 y then PI / 2 else if Rlt_dec y 0 then - (PI / 2) else 0.

(** [a % (2 pi)]-equality of angles. *)
Definition same_angle (a b : R) : Prop := cos a = cos b /\ sin a = sin b.

Ltac vunf := unfold vdist, vnorm, vdot, vcross, vadd, vsub, vneg, vscale, rot90 in *; cbn [fst snd] in *.

Lemma vdot_self_nonneg a : 0 <= vdot a a.
Proof. unfold vdot. nra. Qed.
Lemma vnorm_nonneg a : 0 <= vnorm a.
Proof. apply sqrt_pos. Qed.
Lemma vnorm_sq a : vnorm a * vnorm a = vdot a a.
Proof. apply sqrt_sqrt, vdot_self_nonneg. Qed.
Lemma vnorm_zero a : vnorm a = 0 <-> a = (0, 0).
Proof.
  split.
  - intro H. assert (E : vdot a a = 0) by (rewrite <- vnorm_sq, H; ring). destruct a as [x y]. unfold vdot in E. cbn in E.
    assert (x = 0) by nra. assert (y = 0) by nra. congruence.
  - intros ->. unfold vnorm, vdot. cbn. replace (0 * 0 + 0 * 0) with 0 by ring. apply sqrt_0.
Qed.
Lemma vnorm_pos a : a <> (0, 0) -> 0 < vnorm a.
Proof. intro H. pose proof (vnorm_nonneg a). destruct (Req_dec (vnorm a) 0) as [E|E]; [apply vnorm_zero in E; contradiction|lra]. Qed.

Lemma vnorm_scale k a : vnorm (vscale k a) = Rabs k * vnorm a.
Proof.
  unfold vnorm. replace (vdot (vscale k a) (vscale k a)) with (k * k * vdot a a) by (vunf; ring).
  rewrite sqrt_mult; [|nra|apply vdot_self_nonneg]. f_equal. replace (k * k) with (Rsqr k) by reflexivity. apply sqrt_Rsqr_abs.
Qed.

Lemma vdist_sym a b : vdist a b = vdist b a.
Proof. vunf. f_equal. ring. Qed.
Lemma vdist_zero a b : vdist a b = 0 <-> a = b.
Proof.
  unfold vdist. rewrite vnorm_zero. destruct a as [a1 a2], b as [b1 b2]. unfold vsub. cbn. split.
  - intros [= H1 H2]. f_equal; lra.
  - intros [= -> ->]. f_equal; ring.
Qed.
Lemma cauchy_schwarz a b : vdot a b <= vnorm a * vnorm b.
Proof.
  pose proof (vnorm_nonneg a). pose proof (vnorm_nonneg b).
  destruct (Rle_dec (vdot a b) 0) as [L|L]; [nra|].
  apply Rsqr_incr_0_var; [|nra]. unfold Rsqr.
  replace (vnorm a * vnorm b * (vnorm a * vnorm b)) with ((vnorm a * vnorm a) * (vnorm b * vnorm b)) by ring. rewrite !vnorm_sq.
  assert (0 <= vcross a b * vcross a b) by nra. vunf. nra.
Qed.
Lemma vnorm_triangle a b : vnorm (vadd a b) <= vnorm a + vnorm b.
Proof.
  pose proof (vnorm_nonneg a). pose proof (vnorm_nonneg b). apply Rsqr_incr_0_var; [|lra]. unfold Rsqr. rewrite vnorm_sq.
  pose proof (cauchy_schwarz a b) as C.
  replace ((vnorm a + vnorm b) * (vnorm a + vnorm b)) with (vnorm a * vnorm a + 2 * (vnorm a * vnorm b) + vnorm b * vnorm b) by ring.
  rewrite !vnorm_sq. replace (vdot (vadd a b) (vadd a b)) with (vdot a a + 2 * vdot a b + vdot b b) by (vunf; ring). lra.
Qed.
Lemma vdist_triangle a b c : vdist a c <= vdist a b + vdist b c.
Proof.
  unfold vdist. replace (vsub a c) with (vadd (vsub a b) (vsub b c)) by (destruct a, b, c; vunf; f_equal; ring). apply vnorm_triangle.
Qed.

(** ** atan2 *)

Lemma cos_atan_sqrt t : cos (atan t) = / sqrt (1 + t * t).
Proof. rewrite cos_atan. unfold Rsqr, Rdiv. ring. Qed.
Lemma sin_atan_sqrt t : sin (atan t) = t / sqrt (1 + t * t).
Proof. apply sin_atan. Qed.

Lemma hyp_div x y : x <> 0 -> sqrt (1 + y / x * (y / x)) = vnorm (x, y) / Rabs x.
Proof.
  intro H. assert (A : 0 < Rabs x) by (apply Rabs_pos_lt; exact H).
  replace (1 + y / x * (y / x)) with (Rsqr (vnorm (x, y) / Rabs x)).
  - rewrite sqrt_Rsqr; [reflexivity|]. apply Rmult_le_pos; [apply vnorm_nonneg|left; apply Rinv_0_lt_compat; exact A].
  - unfold Rsqr. replace (vnorm (x, y) / Rabs x * (vnorm (x, y) / Rabs x)) with ((vnorm (x, y) * vnorm (x, y)) / (Rabs x * Rabs x)) by (field; lra).
    rewrite vnorm_sq, <- Rabs_mult, (Rabs_pos_eq (x * x)) by nra. unfold vdot. cbn. field. exact H.
Qed.

Lemma atan2_spec y x : vnorm (x, y) * cos (atan2 y x) = x /\ vnorm (x, y) * sin (atan2 y x) = y.
Proof.
  unfold atan2. destruct (Rlt_dec 0 x) as [P|P].
  - assert (N : 0 < vnorm (x, y)) by (apply vnorm_pos; intros [= E _]; lra).
    rewrite cos_atan_sqrt, sin_atan_sqrt, hyp_div by lra. rewrite Rabs_pos_eq by lra. split; field; lra.
  - destruct (Rlt_dec x 0) as [Q|Q].
    + assert (N : 0 < vnorm (x, y)) by (apply vnorm_pos; intros [= E _]; lra).
      assert (A : Rabs x = - x) by (apply Rabs_left; exact Q).
      assert (C : vnorm (x, y) * (- cos (atan (y / x))) = x /\ vnorm (x, y) * (- sin (atan (y / x))) = y).
      { rewrite cos_atan_sqrt, sin_atan_sqrt, hyp_div by lra. rewrite A. split; field; lra. }
      destruct (Rle_dec 0 y).
      * rewrite neg_cos, neg_sin. exact C.
      * replace (atan (y / x) - PI) with (- (PI - atan (y / x))) by ring. rewrite cos_neg, sin_neg.
        replace (PI - atan (y / x)) with (- atan (y / x) + PI) by ring. rewrite neg_cos, neg_sin, cos_neg, sin_neg.
        replace (- - - sin (atan (y / x))) with (- sin (atan (y / x))) by ring. exact C.
    + assert (x = 0) as -> by lra. destruct (Rlt_dec 0 y) as [L|L].
      * rewrite cos_PI2, sin_PI2. unfold vnorm, vdot. cbn. replace (0 * 0 + y * y) with (Rsqr y) by (unfold Rsqr; ring). rewrite sqrt_Rsqr by lra. split; ring.
      * destruct (Rlt_dec y 0) as [L'|L'].
        -- rewrite cos_neg, sin_neg, cos_PI2, sin_PI2. unfold vnorm, vdot. cbn. replace (0 * 0 + y * y) with (Rsqr (- y)) by (unfold Rsqr; ring).
           rewrite sqrt_Rsqr by lra. split; ring.
        -- assert (y = 0) as -> by lra. rewrite (proj2 (vnorm_zero (0, 0)) eq_refl). split; ring.
Qed.

Lemma atan2_range y x : - PI < atan2 y x <= PI.
Proof.
  pose proof PI_RGT_0 as P. unfold atan2. destruct (Rlt_dec 0 x); [pose proof (atan_bound (y / x)); lra|].
  destruct (Rlt_dec x 0) as [Q|Q].
  - destruct (Rle_dec 0 y) as [L|L].
    + assert (A : atan (y / x) <= 0).
      { destruct (Req_dec y 0) as [->|N]; [replace (0 / x) with 0 by (field; lra); rewrite atan_0; lra|].
        left. rewrite <- atan_0. apply atan_increasing. apply Ropp_lt_cancel. rewrite Ropp_0. unfold Rdiv.
        rewrite Ropp_mult_distr_r. apply Rmult_lt_0_compat; [lra|].
        apply Ropp_0_gt_lt_contravar, Rinv_lt_0_compat. exact Q. }
      pose proof (atan_bound (y / x)). lra.
    + assert (A : 0 < atan (y / x)).
      { rewrite <- atan_0. apply atan_increasing. unfold Rdiv. replace (y * / x) with ((- y) * (- / x)) by ring. apply Rmult_lt_0_compat; [lra|].
        apply Ropp_0_gt_lt_contravar, Rinv_lt_0_compat. exact Q. }
      pose proof (atan_bound (y / x)). lra.
  - destruct (Rlt_dec 0 y); [lra|]. destruct (Rlt_dec y 0); lra.
Qed.

(** An angle in (-pi, pi] is determined by its cosine and sine. *)
Lemma angle_unique a b : - PI < a <= PI -> - PI < b <= PI -> cos a = cos b -> sin a = sin b -> a = b.
Proof.
  intros Ha Hb Hc Hs. pose proof PI_RGT_0 as P.
  assert (C : cos (a - b) = 1). { rewrite cos_minus, Hc, Hs. pose proof (sin2_cos2 b) as T. unfold Rsqr in T. lra. }
  assert (S : sin ((a - b) / 2) = 0).
  { replace (a - b) with (2 * ((a - b) / 2)) in C by field. rewrite cos_2a_sin in C. nra. }
  assert (B : - PI < (a - b) / 2 < PI) by lra.
  destruct (Rlt_dec 0 ((a - b) / 2)) as [L|L].
  - pose proof (sin_gt_0 _ L (proj2 B)). lra.
  - destruct (Rlt_dec ((a - b) / 2) 0) as [L'|L']; [|lra].
    pose proof (sin_lt_0_var _ (proj1 B) L'). lra.
Qed.

Lemma atan2_cos_sin a r : 0 < r -> - PI < a <= PI -> atan2 (r * sin a) (r * cos a) = a.
Proof.
  intros Hr Ha. assert (N : vnorm (r * cos a, r * sin a) = r).
  { replace (r * cos a, r * sin a) with (vscale r (cos a, sin a)) by reflexivity. rewrite vnorm_scale. unfold vnorm, vdot. cbn.
    replace (cos a * cos a + sin a * sin a) with 1 by (pose proof (sin2_cos2 a) as T; unfold Rsqr in T; lra). rewrite sqrt_1, Rabs_pos_eq; lra. }
  pose proof (atan2_spec (r * sin a) (r * cos a)) as [A B]. rewrite N in A, B.
  apply angle_unique; [apply atan2_range|exact Ha| |]; nra.
Qed.
