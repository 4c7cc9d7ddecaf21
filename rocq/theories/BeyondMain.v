(* Generated from tools/Beyond.src by tools/gen_props.py. *)
(** Speeds beyond the limits. *)
From Coq Require Import String Reals List Bool Arith Lra Lia Psatz.
From Verif Require Import DynSpec DynProofs Base R2 GeoModel DataModel DataSpec DataProofs DataMain LaneModel BodyModel BodySpec BodyMain DynModel DrawModel CollModel CollSpec CollProofs CollMain BuildModel BuildSpec BuildMain ImpactModel ImpactSpec ImpactMain BeyondSpec.
Import ListNotations.
Open Scope R_scope.
Local Arguments aget {K V} eqb d k : simpl nomatch.
Local Arguments aset {K V} eqb d k v : simpl nomatch.

Lemma evolves_later f r T s : 0 <= s -> evolves f r T -> evolves (fun t => f (s + t)) (fun t => r (s + t)) (T - s).
Proof.
  intros Hs [C D]. split.
  - intros t Ht eps He. destruct (C (s + t) ltac:(lra) eps He) as (d & Hd & K). exists d. split; [exact Hd|]. intros q Hq A. apply K; [lra|]. replace (s + q - (s + t)) with (q - t) by ring. exact A.
  - intros t Ht. pose proof (D (s + t) ltac:(lra)) as K. unfold right_deriv in *. intros eps He. destruct (K eps He) as (d & Hd & K'). exists d. split; [exact Hd|]. intros h Hh. replace (s + (t + h)) with (s + t + h) by ring. apply K'. exact Hh.
Qed.

Lemma stays_widened f r T lo hi : evolves f r T -> (forall t, 0 <= t < T -> hi <= f t -> r t <= 0) -> (forall t, 0 <= t < T -> f t <= lo -> 0 <= r t) ->
  forall s t, 0 <= s -> s <= t -> t <= T -> within (f t) (widened_lo lo (f s)) (widened_hi hi (f s)).
Proof.
  intros E A B s t H0 H1 H2. unfold widened_lo, widened_hi. pose proof (Rmax_l hi (f s)). pose proof (Rmax_r hi (f s)). pose proof (Rmin_l lo (f s)). pose proof (Rmin_r lo (f s)).
  assert (Z : f (s + 0) = f s) by (f_equal; ring).
  replace t with (s + (t - s)) by ring.
  apply (stays_within _ _ (T - s) (Rmin lo (f s)) (Rmax hi (f s)) (evolves_later f r T s H0 E)).
  - intros q Hq K. apply A; lra.
  - intros q Hq K. apply B; lra.
  - rewrite Z. split; assumption.
  - lra.
Qed.

(** Whatever speed and steering angle a kinematic vehicle has at a time s, and whatever is
    commanded, from then on it goes no further beyond its limits than it was; in
    particular it never leaves them once it is inside. *)
Lemma C143_vehicle_pf : forall g p u x T, vpar_ok p -> vehicle_motion g p u x T -> forall s t, 0 <= s -> s <= t -> t <= T ->
  within (v_vx (x t)) (widened_lo (mp_vlo (vp_m p)) (v_vx (x s))) (widened_hi (mp_vhi (vp_m p)) (v_vx (x s))) /\
  within (v_delta (x t)) (widened_lo (- vp_dmax p) (v_delta (x s))) (widened_hi (vp_dmax p) (v_delta (x s))).
Proof.
  intros g p u x T (_ & Hd & Hdd) (_ & _ & _ & MV & MD) s t H0 H1 H2. split.
  - refine (stays_widened _ _ T _ _ MV _ _ s t H0 H1 H2); intros q Hq K; cbn [v_vx vehicle_dynamics]; [apply speed_at_max; exact K| apply speed_at_min; exact K].
  - refine (stays_widened _ _ T _ _ MD _ _ s t H0 H1 H2); intros q Hq K; cbn [v_delta vehicle_dynamics]; [apply steer_at_max; assumption| apply steer_at_min; assumption].
Qed.

(** The same for dynamic obstacles, in all three components. *)
Lemma C143_obstacle_pf : forall p lo hi u x T, motion6 (fun t => obstacle_dynamics p lo hi (x t) (u t)) x T -> forall s t, 0 <= s -> s <= t -> t <= T ->
  within (s_vx (x t)) (widened_lo (mp_vlo p) (s_vx (x s))) (widened_hi (mp_vhi p) (s_vx (x s))) /\
  within (s_vy (x t)) (widened_lo (mp_vlo p) (s_vy (x s))) (widened_hi (mp_vhi p) (s_vy (x s))) /\
  within (s_dpsi (x t)) (widened_lo lo (s_dpsi (x s))) (widened_hi hi (s_dpsi (x s))).
Proof.
  intros p lo hi u x T (_ & _ & _ & MX & MY & MP) s t H0 H1 H2. split; [|split].
  - refine (stays_widened _ _ T _ _ MX _ _ s t H0 H1 H2); intros q Hq K; cbn [s_vx obstacle_dynamics]; [apply speed_at_max; exact K| apply speed_at_min; exact K].
  - refine (stays_widened _ _ T _ _ MY _ _ s t H0 H1 H2); intros q Hq K; cbn [s_vy obstacle_dynamics]; [apply speed_at_max; exact K| apply speed_at_min; exact K].
  - refine (stays_widened _ _ T _ _ MP _ _ s t H0 H1 H2); intros q Hq K; cbn [s_dpsi obstacle_dynamics]; [apply rot_at_max; exact K| apply rot_at_min; exact K].
Qed.

(** The same for the forward speed of a pedestrian that has not collided. *)
Lemma C143_pedestrian_pf : forall p u x T, motion6 (fun t => pedestrian_dynamics p false (x 0) (x t) (u t)) x T -> forall s t, 0 <= s -> s <= t -> t <= T ->
  within (s_vx (x t)) (widened_lo (mp_vlo (pp_m p)) (s_vx (x s))) (widened_hi (mp_vhi (pp_m p)) (s_vx (x s))).
Proof.
  intros p u x T (_ & _ & _ & MV & _) s t H0 H1 H2.
  refine (stays_widened _ _ T _ _ MV _ _ s t H0 H1 H2); intros q Hq K; cbn [s_vx pedestrian_dynamics]; [pose proof (speed_at_max _ (pc_acc (u q)) _ K)| pose proof (speed_at_min _ (pc_acc (u q)) _ K)]; lra.
Qed.

(** The same for the yaw rate of a spacecraft and the nozzle angle of rockets and
    spaceships. *)
Lemma C143_spacecraft_rotation_pf : forall p lo hi w m Iz u x T, motion6 (fun t => spacecraft_dynamics p lo hi w m Iz (x t) (u t)) x T -> forall s t, 0 <= s -> s <= t -> t <= T ->
  within (s_dpsi (x t)) (widened_lo lo (s_dpsi (x s))) (widened_hi hi (s_dpsi (x s))).
Proof.
  intros p lo hi w m Iz u x T (_ & _ & _ & _ & _ & MP) s t H0 H1 H2.
  refine (stays_widened _ _ T _ _ MP _ _ s t H0 H1 H2); intros q Hq K; cbn [s_dpsi spacecraft_dynamics]; [apply rot_at_max; exact K| apply rot_at_min; exact K].
Qed.

Lemma C143_rocket_nozzle_pf : forall p Iz l u x T, motion8 (fun t => rocket_dynamics p Iz l (x t) (u t)) x T -> forall s t, 0 <= s -> s <= t -> t <= T ->
  within (r_ang (x t)) (widened_lo (rp_lo p) (r_ang (x s))) (widened_hi (rp_hi p) (r_ang (x s))).
Proof.
  intros p Iz l u x T (_ & _ & _ & _ & _ & _ & MA & _) s t H0 H1 H2.
  assert (E : forall s, r_ang (rocket_dynamics p Iz l (x s) (u s)) = apply_full_ang_vel_limits (r_ang (x s)) (rc_dphi (u s)) (rp_lo p) (rp_hi p) (rp_dlo p) (rp_dhi p)) by (intros q; unfold rocket_dynamics; destruct (rocket_thrust p (x q) (u q)); reflexivity).
  refine (stays_widened _ _ T _ _ MA _ _ s t H0 H1 H2); intros q Hq K; cbv beta; rewrite E; [apply ang_at_max; exact K| apply ang_at_min; exact K].
Qed.

Lemma C143_spaceship_nozzle_pf : forall p Iz l u x T, motion8 (fun t => spaceship_dynamics p Iz l (x t) (u t)) x T -> forall s t, 0 <= s -> s <= t -> t <= T ->
  within (r_ang (x t)) (widened_lo (rp_lo p) (r_ang (x s))) (widened_hi (rp_hi p) (r_ang (x s))).
Proof.
  intros p Iz l u x T (_ & _ & _ & _ & _ & _ & MA & _) s t H0 H1 H2.
  refine (stays_widened _ _ T _ _ MA _ _ s t H0 H1 H2); intros q Hq K; cbn [r_ang spaceship_dynamics]; [apply ang_at_max; exact K| apply ang_at_min; exact K].
Qed.

(** A vehicle with straight wheels that is at least as fast as its limit and whose agent
    commands nothing keeps that speed: the limits do not bring it back. *)
Lemma C143_coasts_pf : forall g p v T, vpar_ok p -> mp_alo (vp_m p) <= 0 <= mp_ahi (vp_m p) -> mp_vhi (vp_m p) <= v ->
  vehicle_motion g p (fun _ => mkVCm 0 0) (fun t => mkV (0 + v * t) 0 0 v 0) T.
Proof.
  intros g p v T (M & Hd & Hdd) Ha Hv. destruct p as [[vlo vhi alo ahi] dm ddm]. unfold mparams_ok in M. cbn [vp_m vp_dmax vp_ddmax mp_vlo mp_vhi mp_alo mp_ahi] in *.
  assert (A : apply_full_acceleration_limits v 0 (mkMP vlo vhi alo ahi) = 0) by (unfold apply_full_acceleration_limits, apply_speed_constraint, apply_acceleration_limits; cbn [mp_vlo mp_vhi mp_alo mp_ahi]; cmp).
  assert (B : steering_constraint 0 0 dm ddm = 0) by (unfold steering_constraint; cmp).
  unfold vehicle_motion, vehicle_dynamics. cbn [v_x v_y v_psi v_vx v_delta c_acc c_ddelta vp_m vp_dmax vp_ddmax]. rewrite A, B, tan_0, cos_0, sin_0.
  split; [eapply evolves_ext; [apply (evolves_affine 0 v)| reflexivity| intros; cbn; unfold Rdiv; ring]|].
  repeat split; eapply evolves_ext; try apply evolves_const; try reflexivity; intros; unfold Rdiv; ring.
Qed.

Definition ram x y v M I e : model := mkModel KDynObstacle (mk cDynObstacleState [x; y; 0; v; 0; 0]) "DynObstacleState" (mkGeo (Some M) (Some I) e "black" GObstacle) (PObstacle (-30, 30) (-5, 5) (-2, 2) (-1, 1)) [(- (4 / 10), - (4 / 10)); (- (4 / 10), 4 / 10); (4 / 10, 4 / 10); (4 / 10, - (4 / 10)); (- (4 / 10), - (4 / 10))] None false.

Lemma a_ram x y v M I e : 0 < M -> 0 < I -> let m := ram x y v M I e in honest (mo_kind m) /\ instance_of (state_class (mo_kind m)) (mo_state m) /\ stands m (x, y) 0 /\ weighs m M I e /\ moves m (v, 0) 0 /\ exists p l, get_mesh joined_points 16 any_shape mean_centroid m = Ok (p :: l).
Proof.
  intros A B. cbv zeta. split; [unfold honest; cbn; tauto|]. split; [apply inst_mk; [nolights|reflexivity]|]. assert (S : stands (ram x y v M I e) (x, y) 0) by (repeat split). split; [exact S|]. split; [repeat split; assumption|]. split.
  - unfold moves, velocity. cbn [ram mo_kind mo_geo mo_state get_velocity]. unfold get_full_velocity, getnum, getattr, mk. cbn. f_equal. unfold rot. cbn [fst snd]. rewrite cos_0, sin_0. repeat (apply pair_equal_spec; split); ring.
  - eexists _, _. apply (proj1 (C115_whole_pf joined_points 16 any_shape mean_centroid (ram x y v M I e) _ ltac:(cbn; tauto) (C115_obstacle_pf joined_points 16 any_shape _ _ _ S eq_refl))). reflexivity.
Qed.

Lemma car_limits x0 m : default_model Car x0 = Ok m -> speed_limits m (kmh2ms (-10)) (kmh2ms 130).
Proof.
  intros E. destruct (presets Car x0) as (p & g & E' & _ & _ & P); [discriminate|]. rewrite E' in E. apply OI in E. subst m.
  unfold vp_default_car in P. unfold speed_limits. cbn [mo_params].
  assert (Q : build (PVehicle (kmh2ms (-10), kmh2ms 130) (-8, 5) 1 (5 / 10)) = Ok (PVehicle (kmh2ms (-10), kmh2ms 130) (-8, 5) 1 (5 / 10))) by (apply build_ok; prove_proper).
  rewrite Q in P. apply OI in P. subst p. eexists _, _, _. reflexivity.
Qed.

(** A collision may push a vehicle beyond its limits although both bodies were within
    theirs: a parked default car, hit from behind by a heavy obstacle at 30 m/s, leaves at
    more than 130 km/h. *)
Lemma C143_collision_refuted_pf : exists sh ms ms' rep n P car block car' block' lo hi blo bhi w,
  (exists x0, default_model Car x0 = Ok car) /\ crash joined_points 16 any_shape mean_centroid sh 1 2 ms None 0 ms' rep n P car block car' block' /\
  speed_limits car lo hi /\ has (mo_state car) "vx" 0 /\ lo < 0 < hi /\
  obstacle_limits block blo bhi /\ has (mo_state block) "vx" (-30) /\ has (mo_state block) "vy" 0 /\ blo <= -30 <= bhi /\
  stands car (0, 0) PI /\ stands car' (0, 0) PI /\ moves car' (- w, 0) 0 /\ hi < w.
Proof.
  destruct (a_car 0 0 PI 0 0) as (ma & E & K & G & St & Ia & Sa & D & VX & Wa & Ma & xa & la & La).
  destruct (a_ram (21 / 10) 0 (-30) 13000 16000 (5 / 10)) as (Hb & Ib & Sb & Wb & Mb & xb & lb & Lb); [lra|lra|].
  assert (Ma' : moves ma (0, 0) 0). { unfold moves in *. rewrite Ma. f_equal. unfold in_world. cbn [fst snd]. rewrite tan_0. unfold Rdiv. rewrite !Rmult_0_l. repeat (apply pair_equal_spec; split); ring. }
  clear Ma. set (mb := ram _ _ _ _ _ _) in *.
  assert (N1 : vdot ((1, 0) : vec) (1, 0) = 1) by (unfold vdot; cbn; lra).
  destruct (happens (18 / 10, 0) (1, 0) (4 / 10) ma mb (0, 0) 0 (-30, 0) 0 (0, 0) PI (21 / 10, 0) 0 la lb xa xb N1 ltac:(lra) ltac:(unfold vdot; cbn; lra) Ia Ib Ma' Mb Sa Sb La Lb) as (ms' & rep & na & nb & C).
  { unfold contact, vdot, vsub. cbn [fst snd]. lra. }
  destruct (crash_two _ _ _ _ _ _ _ _ _ _ _ _ _ _ _ _ _ _ _ _ _ _ _ _ _ _ _ _ _ _ _ _ C Wa Wb Ma' Mb Sa Sb) as (va' & wa' & vb' & wb' & T & EA & EB).
  destruct (two_bodies_inv _ _ _ _ _ _ _ _ _ _ _ _ _ _ _ _ _ _ _ _ _ _ _ _ _ _ _ (seen_flag_only _ _ _ _) T) as (_ & _ & _ & _ & _ & _ & _ & A1 & A2 & B1 & B2 & _).
  assert (Q1 : va' = (- (450 / 11), 0)). { rewrite A1. unfold velocity_of_P_given_A, vadd, vscale, vdot, vsub, vcross, rot90. cbn [fst snd]. rewrite Rmin_left by lra. apply pair_equal_spec; split; field. }
  destruct (vehicle_rolls ma va' wa' (0, 0) PI 0 K Ia Sa D) as [S' R]. rewrite <- EA in R, S'.
  clear A1 A2 B1 B2 EA EB. subst va'.
  assert (F0 : forward PI (- (450 / 11), 0) = 450 / 11) by (unfold forward; cbn [fst snd]; rewrite cos_PI, sin_PI; field).
  exists (meets (18 / 10, 0) (1, 0) (4 / 10)), [(1%nat, ma); (2%nat, mb)], ms', rep, (1, 0), (18 / 10, 0), ma, mb, na, nb, (kmh2ms (-10)), (kmh2ms 130), (-30), 30, (450 / 11).
  split; [eexists; exact E|]. split; [assumption|]. split; [eapply car_limits; exact E|]. split; [exact VX|]. split; [unfold kmh2ms; lra|].
  split; [eexists _, _, _; reflexivity|]. do 2 (split; [reflexivity|]). split; [lra|].
  split; [exact Sa|]. split; [destruct S' as (_ & _ & _ & _ & _ & S'), Sa as (X1 & X2 & X3); unfold stands, has in *; repeat split; rewrite S' by (cbn; intuition discriminate); assumption|]. split; [|unfold kmh2ms; lra].
  rewrite F0, tan_0 in R. unfold moves in *. rewrite R. f_equal. unfold in_world. cbn [fst snd]. rewrite cos_PI, sin_PI. unfold Rdiv. repeat (apply pair_equal_spec; split); ring.
Qed.
