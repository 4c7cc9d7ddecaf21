(** Lemmas about the sensor model. *)
From Coq Require Import Reals Lra Psatz List Bool ZArith Lia Arith.
From Verif Require Import Base R2 LaneModel LaneProofs BodyModel BodySpec BodyProofs SensorModel SensorSpec.
Import ListNotations.
Open Scope R_scope.

Lemma sqd_dist p q : vdist p q = sqrt (sqd p q).
Proof. unfold vdist, vnorm, vdot, vsub, sqd. cbn [fst snd]. f_equal. ring. Qed.
Lemma sqd_pos p q : 0 <= sqd p q.
Proof. unfold sqd. pose proof (pow2_ge_0 (fst q - fst p)). pose proof (pow2_ge_0 (snd q - snd p)). lra. Qed.
Lemma sqd_le p q r : sqd p q <= sqd p r <-> vdist p q <= vdist p r.
Proof.
  rewrite !sqd_dist. split; [apply sqrt_le_1_alt|]. intro H. pose proof (sqd_pos p q). pose proof (sqd_pos p r). apply sqrt_le_0; assumption.
Qed.
Lemma sqd_at p a d : sqd p (at_dir p a d) = d ^ 2.
Proof.
  unfold sqd, at_dir. cbn [fst snd]. pose proof (sin2_cos2 a) as T. unfold Rsqr in T. transitivity (d ^ 2 * (sin a * sin a + cos a * cos a)); [ring|]. rewrite T. ring.
Qed.
Lemma dist_at p a d : 0 <= d -> vdist p (at_dir p a d) = d.
Proof. intro D. rewrite sqd_dist, sqd_at. replace (d ^ 2) with (d * d) by ring. apply sqrt_square. exact D. Qed.

Lemma hits_loop_spec p hits : forall v0, let b := hits_loop p hits (v0, sqd p v0) in
  snd b = sqd p (fst b) /\ snd b <= sqd p v0 /\ (forall i o, In (i, o) hits -> snd b <= sqd p i /\ snd b <= sqd p o) /\ (fst b = v0 \/ exists i o, In (i, o) hits /\ (fst b = i \/ fst b = o)).
Proof.
  induction hits as [|[i o] hits IH]; intros v0.
  - cbn. split; [reflexivity|]. split; [apply Rle_refl|]. split; [contradiction|auto].
  - unfold hits_loop. cbn [fold_left]. 
    assert (S : exists v1, hits_step p (v0, sqd p v0) (i, o) = (v1, sqd p v1) /\ sqd p v1 <= sqd p v0 /\ sqd p v1 <= sqd p i /\ sqd p v1 <= sqd p o /\ (v1 = v0 \/ v1 = i \/ v1 = o)).
    { unfold hits_step. cbn [snd]. destruct (ltb (sqd p i) (sqd p v0)) eqn:L1; cbn [snd].
      - apply ltb_iff in L1. destruct (ltb (sqd p o) (sqd p i)) eqn:L2; [apply ltb_iff in L2; exists o|apply ltb_false in L2; exists i]; (split; [reflexivity|]); (split; [lra|]); (split; [lra|]); (split; [lra|]); auto.
      - apply ltb_false in L1. destruct (ltb (sqd p o) (sqd p v0)) eqn:L2; [apply ltb_iff in L2; exists o|apply ltb_false in L2; exists v0]; (split; [reflexivity|]); (split; [lra|]); (split; [lra|]); (split; [lra|]); auto. }
    destruct S as (v1 & -> & S0 & S1 & S2 & S3). destruct (IH v1) as (A & B & C & D). unfold hits_loop in *. split; [exact A|]. split; [lra|]. split.
    + intros i' o' [[= <- <-]|I]; [lra|]. exact (C i' o' I).
    + destruct D as [D|(i' & o' & I & D)].
      * rewrite D. destruct S3 as [->|[->| ->]]; [left; reflexivity|right; exists i, o; split; [left; reflexivity|auto]..].
      * right. exists i', o'. split; [right; exact I|exact D].
Qed.

Lemma ray_end_at s a : ray_end s a = at_dir (s_p s) a (s_range s).
Proof. reflexivity. Qed.

Lemma ray_vertex_spec rt s a : let e := at_dir (s_p s) a (s_range s) in let w := ray_vertex rt s a in
  sqd (s_p s) w <= sqd (s_p s) e /\ (forall i o, In (i, o) (rt (s_p s) e) -> sqd (s_p s) w <= sqd (s_p s) i /\ sqd (s_p s) w <= sqd (s_p s) o) /\
  (w = e \/ exists i o, In (i, o) (rt (s_p s) e) /\ (w = i \/ w = o)).
Proof.
  cbv zeta. unfold ray_vertex. rewrite ray_end_at. set (e := at_dir (s_p s) a (s_range s)). destruct (rt (s_p s) e) as [|h l] eqn:E; [split; [apply Rle_refl|split; [contradiction|auto]]|].
  assert (Q : s_range s ^ 2 = sqd (s_p s) e) by (unfold e; rewrite sqd_at; reflexivity). rewrite Q. destruct (hits_loop_spec (s_p s) (h :: l) e) as (A & B & C & D). rewrite A in *. auto.
Qed.

Lemma int_part x : 0 <= x -> exists n, py_int x = Z.of_nat n /\ INR n <= x < INR n + 1.
Proof.
  intro X. unfold py_int. rewrite (proj2 (leb_iff 0 x) X). pose proof (base_Int_part x) as [B1 B2].
  assert (P : (0 <= Int_part x)%Z). { apply Z.lt_succ_r, lt_IZR. rewrite succ_IZR. lra. }
  exists (Z.to_nat (Int_part x)). rewrite Z2Nat.id by exact P. split; [reflexivity|]. rewrite INR_IZR_INZ, Z2Nat.id by exact P. lra.
Qed.
Lemma int_neg x : x < 0 -> (py_int x <= 0)%Z.
Proof.
  intro X. unfold py_int. destruct (leb 0 x) eqn:L; [apply leb_iff in L; lra|]. pose proof (base_Int_part (- x)) as [B1 B2].
  assert (P : (0 <= Int_part (- x))%Z). { apply Z.lt_succ_r, lt_IZR. rewrite succ_IZR. lra. } lia.
Qed.

Lemma angles_spec s n : py_int (s_fov s / s_resolution s) = Z.of_nat n ->
  ray_angles s = Ok (map (fun i => s_theta s - s_fov s / 2 + INR i * (s_fov s / INR n)) (List.seq 0 (n + 1))).
Proof.
  intro E. unfold ray_angles, linspace. rewrite E. replace (Z.of_nat n + 1 <? 0)%Z with false by (symmetry; apply Z.ltb_ge; lia). replace (Z.to_nat (Z.of_nat n + 1)) with (n + 1)%nat by lia. cbn [bind]. rewrite map_map. f_equal. apply map_ext_in. intros i I. apply in_seq in I.
  destruct (Nat.eqb_spec (n + 1) 1).
  - assert (i = 0%nat) by lia. subst i. cbn [INR]. lra.
  - replace (n + 1 - 1)%nat with n by lia. replace (s_fov s / 2 - - s_fov s / 2) with (s_fov s) by field. lra.
Qed.

Lemma res_range r : 0 < r -> 0 < atan (1 / r) < PI / 2.
Proof.
  intro R. pose proof (atan_bound (1 / r)) as B. split; [|lra]. rewrite <- atan_0. apply atan_increasing. apply Rdiv_lt_0_compat; lra.
Qed.

Lemma segment_at p a r d : 0 < r -> 0 <= d <= r -> on_segment p (at_dir p a r) (at_dir p a d).
Proof.
  intros R D. exists (d / r). split.
  - split; [apply Rmult_le_reg_r with r; [exact R|]; replace (d / r * r) with d by (field; lra); lra|apply Rmult_le_reg_r with r; [exact R|]; replace (d / r * r) with d by (field; lra); lra].
  - unfold at_dir, vadd, vscale, vsub. cbn [fst snd]. f_equal; field; lra.
Qed.
Lemma segment_at_inv p a r x : 0 <= r -> on_segment p (at_dir p a r) x -> exists d, 0 <= d <= r /\ x = at_dir p a d.
Proof.
  intros R (t & T & ->). exists (t * r). split; [nra|]. unfold at_dir, vadd, vscale, vsub. cbn [fst snd]. f_equal; ring.
Qed.
(** Between two points on the same ray: not nearer than the nearer one. *)
Lemma between p a d1 d2 d : 0 <= d1 -> 0 <= d2 -> 0 <= d -> on_segment (at_dir p a d1) (at_dir p a d2) (at_dir p a d) -> Rmin d1 d2 <= d.
Proof.
  intros D1 D2 D (t & T & E). assert (Q : d = d1 + t * (d2 - d1)).
  { unfold at_dir, vadd, vscale, vsub in E. cbn [fst snd] in E. injection E as E1 E2. pose proof (sin2_cos2 a) as S. unfold Rsqr in S. 
    assert (C : (d - (d1 + t * (d2 - d1))) * cos a = 0) by lra. assert (C' : (d - (d1 + t * (d2 - d1))) * sin a = 0) by lra.
    transitivity ((d - (d1 + t * (d2 - d1))) * (sin a * sin a + cos a * cos a) + (d1 + t * (d2 - d1))); [rewrite S; ring|].
    transitivity ((d - (d1 + t * (d2 - d1))) * sin a * sin a + (d - (d1 + t * (d2 - d1))) * cos a * cos a + (d1 + t * (d2 - d1))); [ring|]. rewrite C, C'. ring. }
  rewrite Q. unfold Rmin. destruct (Rle_dec d1 d2); nra.
Qed.

(** ** A ray tracer for a disc *)
Definition pt (a b : vec) (t : R) : vec := vadd a (vscale t (vsub b a)).
Definition disc_raytrace (c : vec) (eps : R) (a b : vec) : list (vec * vec) :=
  let u := vsub b a in let A := vdot u u in let B := vdot (vsub a c) u in let C := vdot (vsub a c) (vsub a c) - eps * eps in
  if Req_EM_T A 0 then (if Rle_dec C 0 then [(a, a)] else [])
  else let D := B * B - A * C in
       if Rlt_dec D 0 then []
       else let lo := Rmax 0 ((- B - sqrt D) / A) in let hi := Rmin 1 ((- B + sqrt D) / A) in
            if Rle_dec lo hi then [(pt a b lo, pt a b hi)] else [].

Lemma in_disc c eps x : 0 <= eps -> vdist c x <= eps <-> vdot (vsub x c) (vsub x c) - eps * eps <= 0.
Proof.
  intro E. rewrite vdist_sym. unfold vdist. rewrite <- vnorm_sq. pose proof (vnorm_nonneg (vsub x c)). split; intro H'; nra.
Qed.

Lemma disc_right c eps : 0 <= eps -> right_raytrace (fun x => vdist c x <= eps) (disc_raytrace c eps).
Proof.
  intros E a b. unfold disc_raytrace. set (u := vsub b a). set (A := vdot u u). set (B := vdot (vsub a c) u). set (C := vdot (vsub a c) (vsub a c) - eps * eps).
  assert (AP : 0 <= A) by (unfold A, vdot; nra).
  assert (Q : forall t, vdot (vsub (pt a b t) c) (vsub (pt a b t) c) - eps * eps = A * (t * t) + 2 * B * t + C) by (intro t; unfold A, B, C, u, pt; vunf; ring).
  destruct (Req_EM_T A 0) as [A0|A0].
  - assert (U : u = (0, 0)). { unfold A, vdot in A0. destruct u as [u1 u2]. cbn [fst snd] in A0. assert (u1 = 0) by nra. assert (u2 = 0) by nra. congruence. }
    assert (PT : forall t, pt a b t = a). { intro t. unfold pt. fold u. rewrite U. destruct a. unfold vadd, vscale. cbn [fst snd]. f_equal; ring. }
    destruct (Rle_dec C 0) as [L|L]; (split; [|split]).
    + intros i o [[= <- <-]|[]]. split; exists 0; (split; [lra|]); fold (pt a b 0); symmetry; apply PT.
    + intros x (t & T & ->) O. exists a, a. split; [left; reflexivity|]. fold (pt a b t). rewrite PT. exists 0. split; [lra|]. destruct a. vunf. f_equal; ring.
    + intros i o [[= <- <-]|[]]. split; apply in_disc; assumption.
    + contradiction.
    + intros x (t & T & ->) O. exfalso. apply L. fold (pt a b t) in O. rewrite PT in O. apply (in_disc c eps a E) in O. exact O.
    + contradiction.
  - assert (AP' : 0 < A) by lra. set (D := B * B - A * C).
    assert (I : forall t, A * (A * (t * t) + 2 * B * t + C) = (A * t + B) * (A * t + B) - D) by (intro t; unfold D; ring).
    assert (K : forall t, A * (t * t) + 2 * B * t + C <= 0 <-> (A * t + B) * (A * t + B) <= D). { intro t. specialize (I t). split; intro H'; nra. }
    destruct (Rlt_dec D 0) as [D0|D0].
    + split; [contradiction|]. split; [|contradiction]. intros x (t & T & ->) O. exfalso. fold (pt a b t) in O. apply (in_disc c eps _ E) in O. rewrite Q in O. apply K in O. pose proof (Rle_0_sqr (A * t + B)) as N. unfold Rsqr in N. lra.
    + set (s := sqrt D). assert (SP : 0 <= s) by apply sqrt_pos. assert (SS : s * s = D) by (apply sqrt_sqrt; lra).
      assert (K' : forall t, A * (t * t) + 2 * B * t + C <= 0 <-> (- B - s) / A <= t <= (- B + s) / A).
      { intro t. rewrite K, <- SS. assert (X1 : (- B - s) / A <= t <-> - s <= A * t + B). { split; intro H'; [apply Rmult_le_compat_r with (r := A) in H'; [|lra]; replace ((- B - s) / A * A) with (- B - s) in H' by (field; lra); lra|apply Rmult_le_reg_r with A; [lra|]; replace ((- B - s) / A * A) with (- B - s) by (field; lra); lra]. }
        assert (X2 : t <= (- B + s) / A <-> A * t + B <= s). { split; intro H'; [apply Rmult_le_compat_r with (r := A) in H'; [|lra]; replace ((- B + s) / A * A) with (- B + s) in H' by (field; lra); lra|apply Rmult_le_reg_r with A; [lra|]; replace ((- B + s) / A * A) with (- B + s) by (field; lra); lra]. }
        rewrite X1, X2. split; intro H'; nra. }
      set (lo := Rmax 0 ((- B - s) / A)). set (hi := Rmin 1 ((- B + s) / A)).
      assert (LO : 0 <= lo /\ (- B - s) / A <= lo) by (unfold lo; split; [apply Rmax_l|apply Rmax_r]). assert (HI : hi <= 1 /\ hi <= (- B + s) / A) by (unfold hi; split; [apply Rmin_l|apply Rmin_r]).
      assert (IN : forall t, 0 <= t <= 1 -> vdist c (pt a b t) <= eps -> lo <= t <= hi). { intros t T O. apply (in_disc c eps _ E) in O. rewrite Q in O. apply K' in O. unfold lo, hi. split; [apply Rmax_lub; lra|apply Rmin_glb; lra]. }
      destruct (Rle_dec lo hi) as [L|L].
      * split; [|split].
        -- intros i o [[= <- <-]|[]]. split; [exists lo|exists hi]; (split; [lra|reflexivity]).
        -- intros x (t & T & ->) O. fold (pt a b t) in *. specialize (IN t T O). exists (pt a b lo), (pt a b hi). split; [left; reflexivity|]. destruct (Req_dec lo hi) as [EQ|NE].
           ++ exists 0. split; [lra|]. replace t with lo by lra. unfold pt. vunf. f_equal; ring.
           ++ exists ((t - lo) / (hi - lo)). split.
              ** split; [apply Rmult_le_reg_r with (hi - lo); [lra|]; replace ((t - lo) / (hi - lo) * (hi - lo)) with (t - lo) by (field; lra); lra|apply Rmult_le_reg_r with (hi - lo); [lra|]; replace ((t - lo) / (hi - lo) * (hi - lo)) with (t - lo) by (field; lra); lra].
              ** unfold pt. vunf. f_equal; field; lra.
        -- intros i o [[= <- <-]|[]]. split; apply (in_disc c eps _ E); rewrite Q; apply K'; lra.
      * split; [contradiction|]. split; [|contradiction]. intros x (t & T & ->) O. fold (pt a b t) in O. specialize (IN t T O). lra.
Qed.

(** A direction that is not that of a ray keeps away from the ray. *)
Lemma clearance p a b r d : 0 < d -> ~ (cos a = cos b /\ sin a = sin b) -> exists eps, 0 < eps /\ forall x, 0 <= x <= r -> eps < vdist (at_dir p a d) (at_dir p b x).
Proof.
  intros D N. pose proof (sin2_cos2 a) as Ta. pose proof (sin2_cos2 b) as Tb. unfold Rsqr in *. set (ca := cos a) in *. set (sa := sin a) in *. set (cb := cos b) in *. set (sb := sin b) in *.
  assert (DD : forall x, vdist (at_dir p a d) (at_dir p b x) * vdist (at_dir p a d) (at_dir p b x) = d * d + x * x - 2 * d * x * (ca * cb + sa * sb)).
  { intro x. unfold vdist. rewrite vnorm_sq. unfold at_dir. fold ca sa cb sb. vunf. transitivity (d * d * (sa * sa + ca * ca) + x * x * (sb * sb + cb * cb) - 2 * d * x * (ca * cb + sa * sb)); [ring|]. rewrite Ta, Tb. ring. }
  clearbody ca sa cb sb.
  assert (K : ca * cb + sa * sb < 1). { pose proof (Rle_0_sqr (ca - cb)) as N1. pose proof (Rle_0_sqr (sa - sb)) as N2. destruct (Req_dec (Rsqr (ca - cb) + Rsqr (sa - sb)) 0) as [Z|Z]; [|unfold Rsqr in *; lra].
    exfalso. apply N. assert (Z1 : Rsqr (ca - cb) = 0) by lra. assert (Z2 : Rsqr (sa - sb) = 0) by lra. apply Rsqr_eq_0 in Z1. apply Rsqr_eq_0 in Z2. split; lra. }
  assert (K1 : -1 <= ca * cb + sa * sb) by (pose proof (Rle_0_sqr (ca + cb)) as N1; pose proof (Rle_0_sqr (sa + sb)) as N2; unfold Rsqr in N1, N2; lra). set (k := ca * cb + sa * sb) in *.
  set (m := if Rle_dec 0 k then 1 - k * k else 1). assert (M : 0 < m) by (unfold m; destruct (Rle_dec 0 k); nra).
  assert (LB : forall x, 0 <= x -> d * d * m <= d * d + x * x - 2 * d * x * k). { intros x X. unfold m. destruct (Rle_dec 0 k); [pose proof (Rle_0_sqr (x - d * k)) as N1; unfold Rsqr in N1; lra|assert (0 <= d * x) by nra; assert (0 <= d * x * - k) by nra; pose proof (Rle_0_sqr x) as N1; unfold Rsqr in N1; lra]. }
  exists (sqrt (d * d * m) / 2). assert (SP : 0 < sqrt (d * d * m)) by (apply sqrt_lt_R0; repeat apply Rmult_lt_0_compat; assumption). split; [lra|]. intros x X. assert (sqrt (d * d * m) <= vdist (at_dir p a d) (at_dir p b x)); [|lra].
  specialize (LB x (proj1 X)). rewrite <- DD in LB. apply sqrt_le_1_alt in LB. rewrite sqrt_square in LB by apply vnorm_nonneg. exact LB.
Qed.
Lemma clearance_all p a d r (l : list R) : 0 < d -> (forall b, In b l -> ~ (cos a = cos b /\ sin a = sin b)) -> exists eps, 0 < eps /\ forall b x, In b l -> 0 <= x <= r -> eps < vdist (at_dir p a d) (at_dir p b x).
Proof.
  intros D. induction l as [|b l IH]; intro N; [exists 1; split; [lra|contradiction]|]. destruct IH as (e1 & E1 & H1); [intros; apply N; right; assumption|]. destruct (clearance p a b r d D (N b (or_introl eq_refl))) as (e2 & E2 & H2).
  exists (Rmin e1 e2). split; [apply Rmin_pos; assumption|]. intros b' x [<-|I] X; [specialize (H2 x X); pose proof (Rmin_r e1 e2); lra|specialize (H1 b' x I X); pose proof (Rmin_l e1 e2); lra].
Qed.
