(** Properties of the sensors. *)
From Coq Require Import Reals Lra Psatz List Bool ZArith Lia Arith.
From Verif Require Import Base R2 LaneModel LaneProofs BodyModel BodySpec BodyProofs SensorModel SensorSpec SensorProofs.
Import ListNotations.
Open Scope R_scope.
(* BODY *)

(** ** C67 *)

(** Which sensors there are. *)
Theorem C67_constructor : forall p th r f s, make_sensor p th r f = Ok s <-> 0 < r /\ f <= 2 * PI /\ s = mkSensor p th r f (atan (1 / r)).
Proof.
  intros p th r f s. unfold make_sensor. destruct (Req_EM_T r 0) as [->|N]; [split; [discriminate|lra]|]. destruct (leb f (2 * PI)) eqn:F.
  - apply leb_iff in F. destruct (leb 0 r) eqn:Z; [apply leb_iff in Z|apply leb_false in Z]; split.
    + intros [= <-]. split; [lra|]. split; [exact F|reflexivity].
    + intros (_ & _ & ->). reflexivity.
    + discriminate.
    + lra.
  - apply leb_false in F. split; [discriminate|lra].
Qed.

(** A sensor of range 0 passes the checks of the constructor, which then fails. *)
Theorem C67_zero_range_refuted : forall p th f, make_sensor p th 0 f = Err PyZeroDivisionError.
Proof. intros. unfold make_sensor. destruct (Req_EM_T 0 0); [reflexivity|contradiction]. Qed.

(** No vertex is out of range, whatever the ray tracer returns. *)
Theorem C67_in_range : forall rt s vs v, 0 <= s_range s -> vis_range_fov rt s = Ok vs -> In v vs -> vdist (s_p s) v <= s_range s.
Proof.
  intros rt s vs v R E I. unfold vis_range_fov in E. destruct (ray_angles s) as [angles|]; [|discriminate]. cbn [bind] in E. set (vertices := (if is_omnidirectional s then [] else [s_p s]) ++ map (ray_vertex rt s) angles) in E.
  assert (V : forall v, In v vertices -> vdist (s_p s) v <= s_range s).
  { intros v' J. apply in_app_iff in J as [J|J].
    - destruct (is_omnidirectional s); [contradiction|]. destruct J as [<-|[]]. rewrite (proj2 (vdist_zero (s_p s) (s_p s)) eq_refl). exact R.
    - apply in_map_iff in J as (a & <- & _). destruct (ray_vertex_spec rt s a) as (L & _). apply sqd_le in L. rewrite (dist_at _ _ _ R) in L. exact L. }
  unfold item in E. destruct (nth_error vertices 0) as [v0|] eqn:N; [|discriminate]. cbn [bind] in E. injection E as <-. apply in_app_iff in I as [I|[<-|[]]]; [auto|]. apply V, (nth_error_In _ _ N).
Qed.

(** The vertex of a ray is a nearest one of its hits and its end. *)
Theorem C67_nearest_hit : forall rt s angle, let e := at_dir (s_p s) angle (s_range s) in let w := ray_vertex rt s angle in
  (w = e \/ exists i o, In (i, o) (rt (s_p s) e) /\ (w = i \/ w = o)) /\ vdist (s_p s) w <= vdist (s_p s) e /\
  forall i o, In (i, o) (rt (s_p s) e) -> vdist (s_p s) w <= vdist (s_p s) i /\ vdist (s_p s) w <= vdist (s_p s) o.
Proof.
  intros rt s angle e w. destruct (ray_vertex_spec rt s angle) as (A & B & C). fold e in A, B, C. fold w in A, B, C. split; [exact C|]. split; [apply sqd_le; exact A|]. intros i o I. destruct (B i o I). split; apply sqd_le; assumption.
Qed.

(** What a sensor sees with a ray tracer that is right about the obstacles: rays from the
    right to the left end of the field of view, each up to the first obstacle; the position
    of the sensor is a vertex exactly if it does not look in all directions. *)
Theorem C67_rays : forall p th r f s obstacle rt, make_sensor p th r f = Ok s -> right_raytrace obstacle rt -> 0 <= f ->
  exists n d vs, INR n <= f / atan (1 / r) < INR n + 1 /\ vis_range_fov rt s = Ok vs /\
    let v i := at_dir p (th - f / 2 + INR i * (f / INR n)) (d i) in
    (2 * PI < f + atan (1 / r) -> vs = map v (List.seq 0 (n + 1)) ++ [v 0%nat]) /\ (f + atan (1 / r) <= 2 * PI -> vs = p :: map v (List.seq 0 (n + 1)) ++ [p]) /\
    forall i, (i <= n)%nat -> 0 <= d i <= r /\ (forall x, 0 <= x < d i -> ~ obstacle (at_dir p (th - f / 2 + INR i * (f / INR n)) x)) /\ (d i < r -> obstacle (v i)).
Proof.
  intros p th r f s obstacle rt M RT F. apply C67_constructor_pf in M as (R & FM & ->). set (s := mkSensor p th r f (atan (1 / r))). destruct (res_range r R) as [A0 A1].
  destruct (int_part (f / atan (1 / r))) as (n & N1 & N2). { apply Rmult_le_pos; [exact F|]. left. apply Rinv_0_lt_compat. exact A0. }
  pose proof (angles_spec s n N1) as An. change (s_theta s) with th in An. change (s_fov s) with f in An. set (a := fun i => th - f / 2 + INR i * (f / INR n)) in *.
  set (w := fun i => ray_vertex rt s (a i)). set (d := fun i => vdist p (w i)).
  assert (W : forall i, 0 <= d i <= r /\ w i = at_dir p (a i) (d i) /\ (forall x, 0 <= x < d i -> ~ obstacle (at_dir p (a i) x)) /\ (d i < r -> obstacle (w i))).
  { intro i. destruct (ray_vertex_spec rt s (a i)) as (L & H & C). change (s_p s) with p in *. change (s_range s) with r in *. fold (w i) in L, H, C. set (e := at_dir p (a i) r) in *. destruct (RT p e) as (RT1 & RT2 & RT3).
    assert (DR : d i <= r) by (apply sqd_le in L; unfold e in L; rewrite dist_at in L by lra; exact L). assert (D0 : 0 <= d i) by apply vnorm_nonneg.
    assert (S : on_segment p e (w i)). { destruct C as [->|(hi & ho & I & C)]; [apply segment_at; lra|]. destruct (RT1 _ _ I). destruct C as [-> | ->]; assumption. }
    apply segment_at_inv in S as (x & X & E); [|lra]. assert (DX : d i = x) by (unfold d; rewrite E; apply dist_at; lra). split; [lra|]. split; [rewrite DX; exact E|]. split.
    - intros y Y O. destruct (RT2 (at_dir p (a i) y)) as (hi & ho & I & B); [apply segment_at; lra|exact O|]. destruct (RT1 _ _ I) as [S1 S2]. apply segment_at_inv in S1 as (d1 & X1 & E1); [|lra]. apply segment_at_inv in S2 as (d2 & X2 & E2); [|lra].
      destruct (H _ _ I) as [H1 H2]. apply sqd_le in H1, H2. fold (d i) in H1, H2. rewrite E1, dist_at in H1 by lra. rewrite E2, dist_at in H2 by lra. rewrite E1, E2 in B. apply between in B; [|lra..]. assert (d i <= Rmin d1 d2) by (apply Rmin_glb; assumption). lra.
    - intro LT. destruct C as [C|(hi & ho & I & C)]; [exfalso; assert (d i = r) by (unfold d; rewrite C; apply dist_at; lra); lra|]. destruct (RT3 _ _ I). destruct C as [-> | ->]; assumption. }
  assert (MW : map (ray_vertex rt s) (map a (List.seq 0 (n + 1))) = map (fun i => at_dir p (a i) (d i)) (List.seq 0 (n + 1))). { rewrite map_map. apply map_ext. intro i. apply (W i). }
  assert (NZ : List.seq 0 (n + 1) = 0%nat :: List.seq 1 n) by (rewrite Nat.add_1_r; reflexivity).
  exists n, d, (if is_omnidirectional s then map (fun i => at_dir p (a i) (d i)) (List.seq 0 (n + 1)) ++ [at_dir p (a 0%nat) (d 0%nat)] else p :: map (fun i => at_dir p (a i) (d i)) (List.seq 0 (n + 1)) ++ [p]).
  split; [exact N2|]. split; [|split; [|split]].
  - unfold vis_range_fov. rewrite An. cbn [bind]. rewrite MW. destruct (is_omnidirectional s); [rewrite NZ; reflexivity|reflexivity].
  - intro O. unfold is_omnidirectional. rewrite (proj2 (ltb_iff _ _)); [reflexivity|]. cbn [s_resolution s_fov s]. unfold s. cbn [s_resolution s_fov]. lra.
  - intro O. unfold is_omnidirectional. rewrite (proj2 (ltb_false _ _)); [reflexivity|]. unfold s. cbn [s_resolution s_fov]. lra.
  - intros i I. destruct (W i) as (W1 & W2 & W3 & W4). split; [exact W1|]. split; [exact W3|]. intro LT. specialize (W4 LT). rewrite W2 in W4. exact W4.
Qed.

(** Neighbouring rays are at least the resolution, less than twice the resolution and less
    than half a turn apart, and a sensor that looks in all directions has at least four
    rays, at most a third of a turn apart. *)
Theorem C67_spacing : forall r f n, 0 < r -> INR n <= f / atan (1 / r) < INR n + 1 -> (1 <= n)%nat ->
  atan (1 / r) <= f / INR n < 2 * atan (1 / r) /\ f / INR n < PI /\ (2 * PI < f + atan (1 / r) -> f <= 2 * PI -> (3 <= n)%nat /\ f / INR n <= 2 * PI / 3).
Proof.
  intros r f n R N L. destruct (res_range r R) as [A0 A1]. set (a := atan (1 / r)) in *. assert (NP : 1 <= INR n) by (apply (le_INR 1) in L; exact L).
  assert (FA : f / a * a = f) by (field; lra). assert (FN : f / INR n * INR n = f) by (field; lra).
  assert (B : a <= f / INR n < 2 * a). { split; [apply Rmult_le_reg_r with (INR n); [lra|]; rewrite FN; nra|apply Rmult_lt_reg_r with (INR n); [lra|]; rewrite FN; nra]. }
  split; [exact B|]. split; [lra|]. intros O F. assert (N3 : (3 <= n)%nat). { assert (3 < f / a) by (apply Rmult_lt_reg_r with a; [lra|]; rewrite FA; lra). assert (X : INR 2 < INR n) by (cbn [INR]; lra). apply INR_lt in X. lia. }
  split; [exact N3|]. assert (3 <= INR n) by (apply (le_INR 3) in N3; cbn [INR] in N3; lra). apply Rmult_le_reg_r with (INR n); [lra|]. rewrite FN. pose proof PI_RGT_0. nra.
Qed.

(** A narrow field of view is not seen: there is one ray, at its right end, and the three
    vertices make no polygon.  A negative field of view is accepted too. *)
Theorem C67_narrow_refuted : forall p th r f s rt, make_sensor p th r f = Ok s -> 0 <= f < atan (1 / r) -> vis_range_fov rt s = Ok [p; ray_vertex rt s (th - f / 2); p].
Proof.
  intros p th r f s rt M F. apply C67_constructor_pf in M as (R & FM & ->). destruct (res_range r R) as [A0 A1]. set (s := mkSensor p th r f (atan (1 / r))).
  destruct (int_part (f / atan (1 / r))) as (n & N1 & N2). { apply Rmult_le_pos; [lra|]. left. apply Rinv_0_lt_compat. exact A0. }
  assert (n = 0%nat). { assert (X : f / atan (1 / r) < 1) by (apply Rmult_lt_reg_r with (atan (1 / r)); [lra|]; replace (f / atan (1 / r) * atan (1 / r)) with f by (field; lra); lra). assert (Y : INR n < INR 1) by (cbn [INR]; lra). apply INR_lt in Y. lia. } subst n.
  unfold vis_range_fov. rewrite (angles_spec s 0 N1). cbn [bind Nat.add List.seq map]. unfold is_omnidirectional. pose proof PI_RGT_0. rewrite (proj2 (ltb_false _ _)) by (unfold s; cbn [s_resolution s_fov]; lra). cbn [app item nth_error bind INR]. change (s_theta s) with th. change (s_fov s) with f. unfold item. cbn [nth_error bind].
  replace (th - f / 2 + 0 * (f / 0)) with (th - f / 2) by (unfold Rdiv; ring). reflexivity.
Qed.

Theorem C67_negative_fov_refuted : forall p th r f rt, 0 < r -> f < 0 -> exists s, make_sensor p th r f = Ok s /\ forall vs, vis_range_fov rt s = Ok vs -> (length vs <= 3)%nat.
Proof.
  intros p th r f rt R F. pose proof PI_RGT_0. destruct (res_range r R) as [A0 A1]. exists (mkSensor p th r f (atan (1 / r))). split; [apply C67_constructor_pf; split; [exact R|split; [lra|reflexivity]]|]. intros vs E.
  unfold vis_range_fov in E. destruct (ray_angles _) as [angles|] eqn:An; [|discriminate]. cbn [bind] in E. assert (L : (length angles <= 1)%nat).
  { unfold ray_angles, linspace in An. destruct (_ <? 0)%Z; [discriminate|]. cbn [bind] in An. injection An as <-. rewrite !map_length, seq_length. cbn [s_fov s_resolution]. assert (Q : (py_int (f / atan (1 / r)) <= 0)%Z). { apply int_neg. apply Rmult_lt_reg_r with (atan (1 / r)); [lra|]. replace (f / atan (1 / r) * atan (1 / r)) with f by (field; lra). lra. } lia. }
  destruct (item _ 0) as [v0|]; [|discriminate]. cbn [bind] in E. injection E as <-. rewrite !app_length, map_length. cbn [length]. destruct (is_omnidirectional _); cbn [length]; lia.
Qed.

(** Obstacles between two rays are not seen: for every sensor there is a disc, at any
    distance, that hides nothing, although it is inside the polygon. *)
Theorem C67_between_rays_refuted : forall p th r f s n, make_sensor p th r f = Ok s -> INR n <= f / atan (1 / r) < INR n + 1 -> (1 <= n)%nat ->
  forall d, 0 < d < r * cos (f / INR n / 2) -> let c := at_dir p (th - f / 2 + f / INR n / 2) d in
  exists eps, 0 < eps /\ in_triangle (p, at_dir p (th - f / 2) r, at_dir p (th - f / 2 + f / INR n) r) c /\
    forall rt rt0, right_raytrace (fun x => vdist c x <= eps) rt -> right_raytrace (fun x => False) rt0 ->
      vis_range_fov rt s = vis_range_fov rt0 s /\ exists vs, vis_range_fov rt s = Ok vs /\ In (at_dir p (th - f / 2) r) vs /\ In (at_dir p (th - f / 2 + f / INR n) r) vs.
Proof.
  intros p th r f s n M N L d D c. apply C67_constructor_pf in M as (R & FM & ->). destruct (res_range r R) as [A0 A1]. destruct (C67_spacing_pf r f n R N L) as ((S0 & _) & SP & _). set (h := f / INR n) in *. assert (NP : 1 <= INR n) by (apply (le_INR 1) in L; exact L).
  assert (HP : 0 < h) by lra. assert (FN : f = INR n * h) by (unfold h; field; lra). set (m := th - f / 2 + h / 2) in *. set (angles := map (fun i => th - f / 2 + INR i * h) (List.seq 0 (n + 1))).
  assert (CH : 0 < cos (h / 2)) by (apply cos_gt_0; lra). assert (C1 : cos (h / 2) <= 1) by apply COS_bound.
  destruct (clearance_all p m d r angles (proj1 D)) as (eps & E0 & EC).
  { intros b I [Q1 Q2]. apply in_map_iff in I as (i & <- & I). apply in_seq in I. set (b := th - f / 2 + INR i * h) in *. assert (X : cos (b - m) = 1). { rewrite cos_minus, Q1, Q2. pose proof (sin2_cos2 b) as T. unfold Rsqr in T. lra. }
    assert (BM : b - m = (INR i - 1 / 2) * h) by (unfold b, m; lra). assert (IB : 0 <= INR i <= INR n) by (split; [apply pos_INR|apply le_INR; lia]).
    assert (S : sin ((b - m) / 2) = 0). { pose proof (cos_2a_sin ((b - m) / 2)) as T. replace (2 * ((b - m) / 2)) with (b - m) in T by field. rewrite X in T. nra. }
    destruct (Rle_dec (b - m) 0) as [L0|L0].
    - assert (0 < sin (- ((b - m) / 2))). { destruct i as [|i]. - cbn [INR] in BM. apply sin_gt_0; lra. - rewrite S_INR in BM. pose proof (pos_INR i). exfalso. nra. } rewrite sin_neg in *. lra.
    - assert (0 < sin ((b - m) / 2)). { apply sin_gt_0; [lra|]. assert (b - m < f) by (rewrite BM, FN; nra). lra. } lra. }
  exists eps. split; [exact E0|]. split.
  - unfold c. replace (th - f / 2) with (m - h / 2) by (unfold m; lra). replace (m - h / 2 + h) with (m + h / 2) by lra. set (k := d / (2 * (r * cos (h / 2)))).
    assert (RC : 0 < r * cos (h / 2)) by (apply Rmult_lt_0_compat; lra). assert (K : 0 < k <= 1 / 2). { unfold k. split; [apply Rdiv_lt_0_compat; lra|]. apply Rmult_le_reg_r with (2 * (r * cos (h / 2))); [lra|]. replace (d / (2 * (r * cos (h / 2))) * (2 * (r * cos (h / 2)))) with d by (field; split; apply Rgt_not_eq; lra). lra. }
    exists (1 - 2 * k), k, k. do 3 (split; [lra|]). split; [lra|]. unfold at_dir, vadd, vscale. cbn [fst snd]. rewrite cos_minus, cos_plus, sin_minus, sin_plus. assert (KD : d = k * (2 * (r * cos (h / 2)))) by (unfold k; field; split; apply Rgt_not_eq; lra). rewrite KD at 1 2. f_equal; ring.
  - intros rt rt0 RT RT0. set (s := mkSensor p th r f (atan (1 / r))). assert (NR : forall q g, (forall x, 0 <= x <= r -> ~ g (at_dir p q x)) -> forall t, right_raytrace g t -> ray_vertex t s q = at_dir p q r).
    { intros q g G t T. unfold ray_vertex. rewrite ray_end_at. change (s_p s) with p. change (s_range s) with r. destruct (t p (at_dir p q r)) as [|[i o] l] eqn:Q; [reflexivity|]. exfalso. destruct (T p (at_dir p q r)) as (T1 & _ & T3). rewrite Q in T1, T3. destruct (T1 i o (or_introl eq_refl)) as [S _]. destruct (T3 i o (or_introl eq_refl)) as [O _]. apply segment_at_inv in S as (x & X & ->); [|lra]. exact (G x X O). }
    assert (EV : forall q, In q angles -> ray_vertex rt s q = at_dir p q r /\ ray_vertex rt0 s q = at_dir p q r).
    { intros q I. split; [apply (NR q _) with (2 := RT)|apply (NR q _) with (2 := RT0)]; [|auto]. intros x X O. specialize (EC q x I X). fold c in EC. lra. }
    assert (NF : py_int (f / atan (1 / r)) = Z.of_nat n). { destruct (int_part (f / atan (1 / r))) as (n' & N1 & N2); [lra|]. rewrite N1. f_equal. assert (X1 : INR n < INR (S n')) by (rewrite S_INR; lra). assert (X2 : INR n' < INR (S n)) by (rewrite S_INR; lra). apply INR_lt in X1. apply INR_lt in X2. lia. }
    unfold vis_range_fov. rewrite (angles_spec s n NF). change (s_theta s) with th. change (s_fov s) with f. fold h. fold angles. cbn [bind].
    assert (ME : map (ray_vertex rt s) angles = map (fun q => at_dir p q r) angles) by (apply map_ext_in; intros q I; apply (EV q I)). assert (ME0 : map (ray_vertex rt0 s) angles = map (fun q => at_dir p q r) angles) by (apply map_ext_in; intros q I; apply (EV q I)). rewrite ME, ME0. split; [reflexivity|].
    assert (I0 : In (at_dir p (th - f / 2) r) (map (fun q => at_dir p q r) angles)). { apply in_map_iff. exists (th - f / 2). split; [reflexivity|]. apply in_map_iff. exists 0%nat. split; [cbn [INR]; lra|apply in_seq; lia]. }
    assert (I1 : In (at_dir p (th - f / 2 + h) r) (map (fun q => at_dir p q r) angles)). { apply in_map_iff. exists (th - f / 2 + h). split; [reflexivity|]. apply in_map_iff. exists 1%nat. split; [cbn [INR]; lra|apply in_seq; lia]. }
    unfold item. destruct (nth_error _ 0) as [v0|] eqn:Q.
    + cbn [bind]. eexists. split; [reflexivity|]. split; apply in_app_iff; left; apply in_app_iff; right; assumption.
    + apply nth_error_None in Q. unfold angles in Q. rewrite app_length, !map_length, seq_length in Q. lia.
Qed.

(** A full range sensor returns the vertices of a disc if it looks in all directions, and
    fails otherwise. *)
Theorem C67_full_range : forall quad p th r f s, make_sensor p th r f = Ok s ->
  (2 * PI < f + atan (1 / r) -> exists vs, full_range_fov quad s = Ok vs /\ length vs = (4 * quad + 1)%nat /\ forall v, In v vs -> vdist p v = r) /\
  (f + atan (1 / r) <= 2 * PI -> full_range_fov quad s = Err PyOther).
Proof.
  intros quad p th r f s M. apply C67_constructor_pf in M as (R & FM & ->). unfold full_range_fov, is_omnidirectional. cbn [s_resolution s_fov s_p s_range]. split; intro H.
  - rewrite (proj2 (ltb_iff _ _)) by lra. eexists. split; [reflexivity|]. split; [unfold circle; rewrite !map_length, seq_length; reflexivity|]. intros v I. apply in_map_iff in I as (w & <- & I). rewrite circle_ring in I. apply in_map_iff in I as (k & <- & _). unfold cvertex. set (x := INR k * (PI / (2 * INR quad))).
    replace (vadd p (r * cos x, - (r * sin x))) with (at_dir p (- x) r); [apply dist_at; lra|]. unfold at_dir, vadd. cbn [fst snd]. rewrite cos_neg, sin_neg. f_equal; ring.
  - rewrite (proj2 (ltb_false _ _)) by lra. reflexivity.
Qed.

(** A right ray tracer for a disc, a sensor with a range of one metre that looks to the
    front, and one that looks in all directions. *)
Example C67_ex : right_raytrace (fun x => vdist (2, 3) x <= 1) (disc_raytrace (2, 3) 1) /\ right_raytrace (fun _ => False) (fun _ _ => []) /\
  (exists s, make_sensor (0, 0) 0 1 (PI / 2) = Ok s) /\ INR 2 <= PI / 2 / atan (1 / 1) < INR 2 + 1 /\ PI / 2 + atan (1 / 1) <= 2 * PI /\
  (exists s, make_sensor (0, 0) 0 1 (2 * PI) = Ok s) /\ 2 * PI < 2 * PI + atan (1 / 1) /\ (0 < 1 / 10 < 1 * cos (PI / 2 / INR 2 / 2)) /\ 0 <= PI / 8 < atan (1 / 1).
Proof.
  pose proof PI_RGT_0 as P. assert (A : atan (1 / 1) = PI / 4) by (replace (1 / 1) with 1 by field; apply atan_1). split; [apply disc_right; lra|]. split; [intros a b; split; [contradiction|split; [contradiction|contradiction]]|]. rewrite A.
  split; [eexists; apply C67_constructor; split; [lra|split; [lra|reflexivity]]|]. split; [replace (PI / 2 / (PI / 4)) with 2 by (field; lra); cbn [INR]; lra|]. split; [lra|]. split; [eexists; apply C67_constructor; split; [lra|split; [lra|reflexivity]]|]. split; [lra|]. split; [|lra].
  split; [lra|]. assert (cos (PI / 4) < cos (PI / 2 / INR 2 / 2)). { cbn [INR]. apply cos_decreasing_1; lra. } assert (/ 10 < cos (PI / 4)); [|lra]. rewrite cos_PI4. unfold Rdiv. rewrite Rmult_1_l. apply Rinv_lt_contravar; [apply Rmult_lt_0_compat; [apply sqrt_lt_R0; lra|lra]|]. apply Rsqr_incrst_0; [rewrite Rsqr_sqrt by lra; unfold Rsqr; lra|apply sqrt_pos|lra].
Qed.
