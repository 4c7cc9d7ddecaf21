(** Lemmas on bodies. *)
From Coq Require Import String Reals Lra Psatz List Bool ZArith Lia Arith.
From Verif Require Import Base R2 GeoModel GeoSpec GeoProofs LaneModel BodyModel BodySpec.
Import ListNotations.
Open Scope R_scope.

Definition known (g : vehicle_geometry) : Prop := In (g_type g) vehicle_types /\ 0 <= g_w_half g /\ 0 <= g_lf g /\ 0 <= g_lr g.
Lemma shape_cases g : In (g_type g) vehicle_types ->
  (four (g_type g) = true /\ exists t r, wheel_shape g = Ok (t, r) /\ 0 < t < r /\ r <= 4 / 10) \/ (four (g_type g) = false /\ wheel_shape g = Ok (5 / 100, 3 / 10)).
Proof.
  intros [E|[E|[E|[E|[]]]]]; unfold wheel_shape, four; rewrite <- E; cbn; [left|left|right|right]; split; try reflexivity; do 2 eexists; (split; [reflexivity|]); lra.
Qed.
Lemma shape g : In (g_type g) vehicle_types -> exists t r f, wheel_shape g = Ok (t, r) /\ 0 < t < r /\ f = (if four (g_type g) then g_lf g / 2 else r) /\ bumpers_length g = Ok (f, r * 2).
Proof.
  intro H. unfold bumpers_length. destruct (shape_cases g H) as [(F & t & r & E & T & _)|(F & E)]; rewrite E, F; cbn [bind fst snd]; do 3 eexists; (split; [reflexivity|]); (split; [lra|]); (split; [reflexivity|]); reflexivity.
Qed.
Lemma outline_box g : In (g_type g) vehicle_types -> exists t r f, wheel_shape g = Ok (t, r) /\ 0 < t < r /\ f = (if four (g_type g) then g_lf g / 2 else r) /\ bumpers_length g = Ok (f, r * 2) /\
  outline g = Ok (box_ring (- g_lr g - r * 2) (g_lf g + f) (g_w_half g + t)).
Proof.
  intro H. destruct (shape g H) as (t & r & f & E & T & F & B). exists t, r, f. do 4 (split; [assumption|]). unfold outline. rewrite E, B. cbn [bind fst snd]. unfold box_ring. replace (- g_w_half g - t) with (- (g_w_half g + t)) by ring. reflexivity.
Qed.

Lemma apply_world o p th : apply_SE2_to_shapely_geo o (SE2_from_translation_angle p th) = map (in_world p th) o.
Proof.
  unfold apply_SE2_to_shapely_geo, affine_transform, SE2_from_translation_angle. cbn [m00 m01 m02 m10 m11 m12]. apply map_ext. intros [a b]. unfold in_world. cbn [fst snd]. f_equal; ring.
Qed.
Lemma transform_world o p th : transform (SE2_from_translation_angle p th) o = map (in_world p th) o.
Proof. unfold transform. apply map_ext. intros [a b]. unfold in_world, SE2_apply_T2, SE2_from_translation_angle. cbn [m00 m01 m02 m10 m11 m12 fst snd]. f_equal; ring. Qed.
Lemma world_inj p th a b : in_world p th a = in_world p th b -> a = b.
Proof.
  destruct a as [a1 a2], b as [b1 b2]. unfold in_world. cbn [fst snd]. intros [= H1 H2]. pose proof (sin2_cos2 th) as T. unfold Rsqr in T.
  assert (K1 : (a1 - b1) * cos th - (a2 - b2) * sin th = 0) by lra. assert (K2 : (a1 - b1) * sin th + (a2 - b2) * cos th = 0) by lra.
  assert (X : (a1 - b1) * (sin th * sin th + cos th * cos th) = 0) by (transitivity (cos th * ((a1 - b1) * cos th - (a2 - b2) * sin th) + sin th * ((a1 - b1) * sin th + (a2 - b2) * cos th)); [ring|rewrite K1, K2; ring]).
  assert (Y : (a2 - b2) * (sin th * sin th + cos th * cos th) = 0) by (transitivity (cos th * ((a1 - b1) * sin th + (a2 - b2) * cos th) - sin th * ((a1 - b1) * cos th - (a2 - b2) * sin th)); [ring|rewrite K1, K2; ring]).
  rewrite T in X, Y. f_equal; lra.
Qed.
Lemma world_comb p th a b c u v w : u + v + w = 1 -> vadd (vscale u (in_world p th a)) (vadd (vscale v (in_world p th b)) (vscale w (in_world p th c))) = in_world p th (vadd (vscale u a) (vadd (vscale v b) (vscale w c))).
Proof.
  intro S. assert (u = 1 - v - w) as -> by lra. destruct p, a, b, c. unfold in_world, vadd, vscale. cbn [fst snd]. f_equal; ring.
Qed.
Lemma world_triangle p th a b c q : in_triangle (in_world p th a, in_world p th b, in_world p th c) (in_world p th q) <-> in_triangle (a, b, c) q.
Proof.
  unfold in_triangle. split; intros (u & v & w & U & V & W & S & E); exists u, v, w; do 4 (split; [assumption|]).
  - apply (world_inj p th). rewrite E. apply world_comb. exact S.
  - rewrite E. symmetry. apply world_comb. exact S.
Qed.
Lemma world_reflect p th c v : in_world p th (reflect c v) = reflect (in_world p th c) (in_world p th v).
Proof. destruct p, c, v. unfold in_world, reflect. cbn [fst snd]. f_equal; ring. Qed.
Lemma world_central p th ring c : central ring c -> central (map (in_world p th) ring) (in_world p th c).
Proof.
  intros (v & h & ->). exists (in_world p th v), (map (in_world p th) h). rewrite !map_app. cbn [map app]. rewrite !map_map. f_equal. f_equal. f_equal; [apply world_reflect|]. f_equal. apply map_ext. intro. apply world_reflect.
Qed.
Lemma world_cross p th a b c : vcross (vsub (in_world p th a) (in_world p th c)) (vsub (in_world p th b) (in_world p th c)) = vcross (vsub a c) (vsub b c).
Proof.
  destruct p, a, b, c. unfold in_world, vcross, vsub. cbn [fst snd]. pose proof (sin2_cos2 th) as T. unfold Rsqr in T.
  match goal with |- _ = ?x => transitivity (x * (sin th * sin th + cos th * cos th)); [ring|rewrite T; ring] end.
Qed.
Lemma world_dist p th a b : vdist (in_world p th a) (in_world p th b) = vdist a b.
Proof.
  destruct p, a, b. unfold in_world, vdist, vnorm, vdot, vsub. cbn [fst snd]. f_equal. pose proof (sin2_cos2 th) as T. unfold Rsqr in T.
  match goal with |- _ = ?x => transitivity (x * (sin th * sin th + cos th * cos th)); [ring|rewrite T; ring] end.
Qed.

Lemma box_central x0 x1 y : central (box_ring x0 x1 y) ((x0 + x1) / 2, 0).
Proof. exists (x0, - y), [(x0, y)]. unfold box_ring, reflect. cbn [map app fst snd]. replace (2 * ((x0 + x1) / 2) - x0) with x1 by field. replace (2 * 0 - - y) with y by ring. replace (2 * 0 - y) with (- y) by ring. reflexivity. Qed.

(** The triangles from the centre to the sides of a box. *)
Section Tri.
Variables x0 x1 y : R.
Hypothesis HX : x0 < x1.
Hypothesis HY : 0 < y.
Let at_ (a b : R) : vec := ((x0 + x1) / 2 + a * ((x1 - x0) / 2), b * y).
Let c : vec := ((x0 + x1) / 2, 0).
Lemma tri_front a b : in_triangle (c, (x1, y), (x1, - y)) (at_ a b) <-> Rabs b <= a <= 1.
Proof.
  unfold in_triangle, at_, c, vadd, vscale. cbn [fst snd]. split.
  - intros (u & v & w & U & V & W & S & [= E1 E2]). assert (A : (a - (v + w)) * ((x1 - x0) / 2) = 0) by (assert (u = 1 - v - w) as -> by lra; lra). assert (B : (b - (v - w)) * y = 0) by lra.
    apply Rmult_integral in A as [A|A]; [|lra]. apply Rmult_integral in B as [B|B]; [|lra]. split; [apply Rabs_le; lra|lra].
  - intros [A A1]. pose proof (Rle_abs b). pose proof (Rle_abs (- b)) as H2. rewrite Rabs_Ropp in H2. exists (1 - a), ((a + b) / 2), ((a - b) / 2). repeat split; try lra. f_equal; field.
Qed.
Lemma tri_back a b : in_triangle (c, (x0, - y), (x0, y)) (at_ a b) <-> Rabs b <= - a <= 1.
Proof.
  unfold in_triangle, at_, c, vadd, vscale. cbn [fst snd]. split.
  - intros (u & v & w & U & V & W & S & [= E1 E2]). assert (A : (a + (v + w)) * ((x1 - x0) / 2) = 0) by (assert (u = 1 - v - w) as -> by lra; lra). assert (B : (b - (w - v)) * y = 0) by lra.
    apply Rmult_integral in A as [A|A]; [|lra]. apply Rmult_integral in B as [B|B]; [|lra]. split; [apply Rabs_le; lra|lra].
  - intros [A A1]. pose proof (Rle_abs b). pose proof (Rle_abs (- b)) as H2. rewrite Rabs_Ropp in H2. exists (1 + a), ((- a - b) / 2), ((- a + b) / 2). repeat split; try lra. f_equal; field.
Qed.
Lemma tri_left a b : in_triangle (c, (x0, y), (x1, y)) (at_ a b) <-> Rabs a <= b <= 1.
Proof.
  unfold in_triangle, at_, c, vadd, vscale. cbn [fst snd]. split.
  - intros (u & v & w & U & V & W & S & [= E1 E2]). assert (A : (a - (w - v)) * ((x1 - x0) / 2) = 0) by (assert (u = 1 - v - w) as -> by lra; lra). assert (B : (b - (v + w)) * y = 0) by lra.
    apply Rmult_integral in A as [A|A]; [|lra]. apply Rmult_integral in B as [B|B]; [|lra]. split; [apply Rabs_le; lra|lra].
  - intros [A A1]. pose proof (Rle_abs a). pose proof (Rle_abs (- a)) as H2. rewrite Rabs_Ropp in H2. exists (1 - b), ((b - a) / 2), ((b + a) / 2). repeat split; try lra. f_equal; field.
Qed.
Lemma tri_right a b : in_triangle (c, (x0, - y), (x1, - y)) (at_ a b) <-> Rabs a <= - b <= 1.
Proof.
  unfold in_triangle, at_, c, vadd, vscale. cbn [fst snd]. split.
  - intros (u & v & w & U & V & W & S & [= E1 E2]). assert (A : (a - (w - v)) * ((x1 - x0) / 2) = 0) by (assert (u = 1 - v - w) as -> by lra; lra). assert (B : (b + (v + w)) * y = 0) by lra.
    apply Rmult_integral in A as [A|A]; [|lra]. apply Rmult_integral in B as [B|B]; [|lra]. split; [apply Rabs_le; lra|lra].
  - intros [A A1]. pose proof (Rle_abs a). pose proof (Rle_abs (- a)) as H2. rewrite Rabs_Ropp in H2. exists (1 + b), ((- b - a) / 2), ((- b + a) / 2). repeat split; try lra. f_equal; field.
Qed.
End Tri.

Lemma valid_world p th a b c : vcross (vsub b a) (vsub c a) <> 0 -> valid_triangle (in_world p th a, in_world p th b, in_world p th c) = true.
Proof. intro H. unfold valid_triangle. rewrite world_cross. destruct (Req_EM_T _ _) as [E|E]; [contradiction|reflexivity]. Qed.

(** *** Regular polygons *)
Definition cvertex (quad : nat) (r : R) (k : nat) : vec := (r * cos (INR k * (PI / (2 * INR quad))), - (r * sin (INR k * (PI / (2 * INR quad))))).
Lemma circle_ring quad r : circle quad r = map (cvertex quad r) (List.seq 0 (4 * quad + 1)).
Proof. reflexivity. Qed.
Lemma cvertex_half quad r k : (1 <= quad)%nat -> cvertex quad r (k + 2 * quad) = reflect (0, 0) (cvertex quad r k).
Proof.
  intro Q. assert (P : 0 < INR quad) by (apply lt_0_INR; lia). unfold cvertex, reflect. cbn [fst snd]. rewrite plus_INR, mult_INR. replace ((INR k + INR 2 * INR quad) * (PI / (2 * INR quad))) with (INR k * (PI / (2 * INR quad)) + PI) by (cbn [INR]; field; lra). rewrite neg_cos, neg_sin. f_equal; ring.
Qed.
Lemma circle_central quad r : (1 <= quad)%nat -> central (circle quad r) (0, 0).
Proof.
  intro Q. rewrite circle_ring. exists (cvertex quad r 0), (map (cvertex quad r) (List.seq 1 (2 * quad - 1))).
  assert (H : cvertex quad r 0 :: map (cvertex quad r) (List.seq 1 (2 * quad - 1)) = map (cvertex quad r) (List.seq 0 (2 * quad))) by (replace (2 * quad)%nat with (S (2 * quad - 1)) at 2 by lia; reflexivity).
  cbv zeta. rewrite H. replace (4 * quad + 1)%nat with (2 * quad + (2 * quad + 1))%nat by lia. rewrite seq_app, map_app. f_equal. rewrite seq_app, map_app. f_equal.
  - rewrite map_map. transitivity (map (fun k => cvertex quad r (k + 2 * quad)) (List.seq 0 (2 * quad))); [|apply map_ext; intro k; apply cvertex_half; exact Q]. rewrite <- (map_map (fun k => (k + 2 * quad)%nat) (cvertex quad r)). f_equal.
    clear. generalize (2 * quad)%nat at 1 3 as s. generalize (2 * quad)%nat as n. intros n s. cbn [plus]. replace (List.seq s n) with (List.seq (0 + s) n) by reflexivity. generalize 0%nat as z. induction n as [|n IH]; intro z; [reflexivity|]. cbn [List.seq map]. f_equal. apply (IH (S z)).
  - cbn [List.seq map]. f_equal. replace (0 + 2 * quad + 2 * quad)%nat with ((0 + 2 * quad) + 2 * quad)%nat by reflexivity. rewrite !cvertex_half by exact Q. unfold reflect. cbn [fst snd]. destruct (cvertex quad r 0). cbn [fst snd]. f_equal; ring.
Qed.
