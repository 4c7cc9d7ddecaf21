(* Generated from tools/Dyn.src by tools/gen_props.py. *)
(** Properties of the limits and of the dynamics of the models. *)
From Coq Require Import Reals Lra Psatz List Bool String QArith Qcanon.
From Verif Require Import Base Num R2 DataModel VehState PlanModel DynModel DynSpec DynProofs.
Import ListNotations.
Open Scope R_scope.

(** The acceleration that is applied is within the limits if zero is. *)
Lemma C51_within_partial_pf : forall v a p, mparams_ok p -> mp_alo p <= 0 <= mp_ahi p -> within (apply_full_acceleration_limits v a p) (mp_alo p) (mp_ahi p).
Proof. intros v a p [_ H] Z. unfold within, apply_full_acceleration_limits, apply_speed_constraint, apply_acceleration_limits. cmp. Qed.

(** In general it is within the limits or zero. *)
Lemma C51_within_or_zero_pf : forall v a p, mparams_ok p -> within (apply_full_acceleration_limits v a p) (mp_alo p) (mp_ahi p) \/ apply_full_acceleration_limits v a p = 0.
Proof. intros v a p [_ H]. unfold within, apply_full_acceleration_limits, apply_speed_constraint, apply_acceleration_limits. cmp. Qed.

(** Zero can be outside the limits that were asked for. *)
Lemma C51_within_refuted_pf : exists v a p, mparams_ok p /\ within v (mp_vlo p) (mp_vhi p) /\ within a (mp_alo p) (mp_ahi p) /\ ~ within (apply_full_acceleration_limits v a p) (mp_alo p) (mp_ahi p).
Proof. exists 10, 2, (mkMP 0 10 1 3). unfold mparams_ok, within, apply_full_acceleration_limits, apply_speed_constraint, apply_acceleration_limits. cbn [mp_vlo mp_vhi mp_alo mp_ahi]. cmp. Qed.

(** At or above the maximal speed there is no further acceleration, at or below the
    minimal speed no further deceleration. *)
Lemma C51_speed_limits_pf : forall v a p, (mp_vhi p <= v -> apply_full_acceleration_limits v a p <= 0) /\ (v <= mp_vlo p -> 0 <= apply_full_acceleration_limits v a p).
Proof. intros v a p. split; [apply speed_at_max| apply speed_at_min]. Qed.

(** Admissible commands are not changed; inside the speed limits the applied
    acceleration is the admissible one nearest to the commanded one. *)
Lemma C51_identity_pf : forall v a p, mparams_ok p -> mp_vlo p < v < mp_vhi p ->
  (within a (mp_alo p) (mp_ahi p) -> apply_full_acceleration_limits v a p = a) /\
  within (apply_full_acceleration_limits v a p) (mp_alo p) (mp_ahi p) /\ forall b, within b (mp_alo p) (mp_ahi p) -> Rabs (apply_full_acceleration_limits v a p - a) <= Rabs (b - a).
Proof.
  intros v a p [_ H] Hv. unfold within, apply_full_acceleration_limits, apply_speed_constraint, apply_acceleration_limits.
  split; [intros Ha; cmp|]. split; [cmp|]. intros b Hb. cmp; unfold Rabs; repeat destruct (Rcase_abs _); lra.
Qed.

(** Braking from full speed and accelerating from the minimal speed are admissible. *)
Lemma C51_recover_pf : forall v a p, within a (mp_alo p) (mp_ahi p) -> mparams_ok p -> (v = mp_vhi p /\ a <= 0 \/ v = mp_vlo p /\ 0 <= a) -> apply_full_acceleration_limits v a p = a.
Proof. intros v a p Ha [Hv H] K. unfold within, apply_full_acceleration_limits, apply_speed_constraint, apply_acceleration_limits in *. destruct K as [[-> K] | [-> K]]; cmp. Qed.

(** The steering rate is always within its limits, never turns a saturated wheel further
    out, and admissible rates are not changed. *)
Lemma C52_steering_pf : forall x a p, vpar_ok p ->
  let r := steering_constraint x a (vp_dmax p) (vp_ddmax p) in
  within r (- vp_ddmax p) (vp_ddmax p) /\ (vp_dmax p <= x -> r <= 0) /\ (x <= - vp_dmax p -> 0 <= r) /\
  (within a (- vp_ddmax p) (vp_ddmax p) -> - vp_dmax p < x < vp_dmax p -> r = a) /\
  (within a (- vp_ddmax p) (vp_ddmax p) -> (x = vp_dmax p /\ a <= 0 \/ x = - vp_dmax p /\ 0 <= a) -> r = a).
Proof.
  intros x a p (_ & H1 & H2). cbv zeta. unfold within, steering_constraint. split; [cmp|]. split; [cmp|]. split; [cmp|]. split; [cmp|].
  intros K [[-> L] | [-> L]]; cmp.
Qed.

(** Inside the angle limits the applied rate is the admissible one nearest to the
    command. *)
Lemma C52_steering_nearest_pf : forall x a p, vpar_ok p -> - vp_dmax p < x < vp_dmax p -> forall b, within b (- vp_ddmax p) (vp_ddmax p) ->
  Rabs (steering_constraint x a (vp_dmax p) (vp_ddmax p) - a) <= Rabs (b - a).
Proof. intros x a p (_ & H1 & H2) Hx b Hb. unfold within, steering_constraint in *. cmp; unfold Rabs; repeat destruct (Rcase_abs _); lra. Qed.

Lemma C52_rotation_pf : forall a p, ppar_ok p ->
  let r := rotation_constraint a (pp_dtheta p) in
  within r (- pp_dtheta p) (pp_dtheta p) /\ (within a (- pp_dtheta p) (pp_dtheta p) -> r = a) /\ forall b, within b (- pp_dtheta p) (pp_dtheta p) -> Rabs (r - a) <= Rabs (b - a).
Proof.
  intros a p (_ & H). cbv zeta. unfold within, rotation_constraint. split; [cmp|]. split; [cmp|]. intros b Hb. cmp; unfold Rabs; repeat destruct (Rcase_abs _); lra.
Qed.

(** The rates of the nozzles of rockets and spaceships, and the rotation of spacecraft. *)
Lemma C52_nozzle_pf : forall x a lo hi dlo dhi, dlo <= 0 <= dhi -> lo <= hi ->
  let r := apply_full_ang_vel_limits x a lo hi dlo dhi in
  within r dlo dhi /\ (hi <= x -> r <= 0) /\ (x <= lo -> 0 <= r) /\ (within a dlo dhi -> lo < x < hi -> r = a).
Proof.
  intros x a lo hi dlo dhi H1 H2. cbv zeta. unfold within, apply_full_ang_vel_limits, apply_ang_constraint, apply_ang_vel_limits. split; [cmp|]. split; [cmp|]. split; cmp.
Qed.

Lemma C52_rotational_speed_pf : forall o a lo hi, 
  let r := apply_rot_speed_constraint o a lo hi in (hi <= o -> r <= 0) /\ (o <= lo -> 0 <= r) /\ (lo < o < hi -> r = a) /\ (r = a \/ r = 0).
Proof. intros o a lo hi. cbv zeta. unfold apply_rot_speed_constraint. split; [cmp|]. split; [cmp|]. split; cmp. Qed.

Lemma C52_force_pf : forall f lo hi, lo <= hi -> within (apply_force_limits f lo hi) lo hi /\ (within f lo hi -> apply_force_limits f lo hi = f) /\
  forall b, within b lo hi -> Rabs (apply_force_limits f lo hi - f) <= Rabs (b - f).
Proof.
  intros f lo hi H. split; [apply force_within; exact H|]. unfold within, apply_force_limits. split.
  - intros K. cmp; unfold Rmax, Rmin; repeat destruct (Rle_dec _ _); lra.
  - intros b Hb. cmp; unfold Rmax, Rmin; repeat destruct (Rle_dec _ _); unfold Rabs; repeat destruct (Rcase_abs _); lra.
Qed.

(** Pedestrians, differential drives, spacecraft, rockets, spaceships and vehicles other
    than cars do not react to commands after a collision, whatever the commands of
    however many steps, for every explicit Runge-Kutta method. *)
Lemma C56_deaf_partial_pf :
  (forall p, deaf (pedestrian_plant p)) /\ (forall wb wr lo hi, deaf (diff_drive_plant wb wr lo hi)) /\ (forall p lo hi w m Iz, deaf (spacecraft_plant p lo hi w m Iz)) /\
  (forall p Iz l, deaf (rocket_plant p Iz l)) /\ (forall p Iz l, deaf (spaceship_plant p Iz l)) /\
  (forall g p, vg_type g <> CAR -> deaf (vehicle_plant g p)) /\ (forall g p pf pr, vg_type g <> CAR -> deaf (vehicle_dyn_plant g p pf pr)).
Proof.
  repeat split; intros; intros tab st h1 h2 Hs; apply updates_deaf; try exact Hs; try reflexivity; cbn; destruct (vg_type g); try reflexivity; contradiction.
Qed.

(** The forward Euler method with one step of one second. *)
Definition euler : list (list R) * list R := ([[]], [1]).

Lemma euler_update : forall X U (P : plant X U) c st u h, update P euler c st u [h] =
  match p_dynamics P c st st (if p_ignore P c then p_zero P else u) with Some dx => Some (p_addX P st (p_scaleX P (h * 1) dx)) | None => None end.
Proof. intros. cbv [update euler rk_solve rk_step rk_stages rk_comb fold_left combine fst snd app]. destruct (p_dynamics P c st st _); reflexivity. Qed.

Lemma updates_one : forall X U (P : plant X U) tab c st u hs, updates P tab c st [(u, hs)] = update P tab c st u hs.
Proof. intros. cbn. destruct (update P tab c st u hs); reflexivity. Qed.

Lemma not_deaf : forall X U (P : plant X U) st u1 u2 x1 x2 (f : X -> R), p_ignore P true = false -> p_dynamics P true st st u1 = Some x1 -> p_dynamics P true st st u2 = Some x2 ->
  f (p_addX P st (p_scaleX P (1 * 1) x1)) <> f (p_addX P st (p_scaleX P (1 * 1) x2)) -> ~ deaf P.
Proof.
  intros X U P st u1 u2 x1 x2 f I D1 D2 N D. pose proof (D euler st [(u1, [1])] [(u2, [1])] eq_refl) as E.
  rewrite !updates_one, !euler_update, I, D1, D2 in E. apply N. congruence.
Qed.

Lemma car_acc : apply_full_acceleration_limits 0 1 (vp_m vp_rcar) = 1 /\ apply_full_acceleration_limits 0 0 (vp_m vp_rcar) = 0.
Proof. unfold apply_full_acceleration_limits, apply_speed_constraint, apply_acceleration_limits, vp_rcar. cbn [vp_m mp_vlo mp_vhi mp_alo mp_ahi]. split; cmp. Qed.

(** A collided car still obeys. *)
Lemma C56_car_refuted_pf : ~ deaf (vehicle_plant vg_car vp_rcar) /\ ~ deaf (vehicle_dyn_plant vg_car vp_rcar (P3 1 1 1) (P3 1 1 1)).
Proof.
  destruct car_acc as [A1 A0]. split.
  - eapply (not_deaf _ _ _ (mkV 0 0 0 0 0) (mkVCm 1 0) (mkVCm 0 0) _ _ v_vx); [reflexivity| reflexivity| reflexivity|].
    cbn [vehicle_plant p_addX p_scaleX vst_add vst_scale v_vx vehicle_dynamics c_acc]. rewrite A1, A0. lra.
  - assert (K : forall u, vehicle_dyn_dynamics vg_car vp_rcar (P3 1 1 1) (P3 1 1 1) true (mkD 0 0 0 0 0 0 0) (mkD 0 0 0 0 0 0 0) u =
                Some (let k := vehicle_dynamics vg_car vp_rcar (mkV 0 0 0 0 0) u in mkD (v_x k) (v_y k) (v_psi k) (v_vx k + - (1) * 0) (- (1) * 0) (- (1) * 0) (v_delta k))).
    { intros u. unfold vehicle_dyn_dynamics, ltb. cbn [vehicle_friction vg_type vg_car two_wheels d_vx d_vy d_dpsi d_x d_y d_psi d_delta]. destruct (Rlt_dec 0 (1 / 10)); [reflexivity| lra]. }
    eapply (not_deaf _ _ _ (mkD 0 0 0 0 0 0 0) (mkVCm 1 0) (mkVCm 0 0) _ _ d_vx); [reflexivity| apply K| apply K|].
    cbv zeta. cbn [vehicle_dyn_plant p_addX p_scaleX dst_add dst_scale d_vx v_vx vehicle_dynamics c_acc]. rewrite A1, A0. lra.
Qed.

(** A collided dynamic obstacle too. *)
Lemma C56_obstacle_refuted_pf : exists p, mparams_ok p /\ ~ deaf (obstacle_plant p (-1) 1).
Proof.
  exists (mkMP (-10) 10 (-10) 10). split; [unfold mparams_ok; cbn; lra|].
  eapply (not_deaf _ _ _ (mk6 0 0 0 0 0 0) (mkOC 0 0 1) (mkOC 0 0 0) _ _ s_dpsi); [reflexivity| reflexivity| reflexivity|].
  cbn [obstacle_plant p_addX p_scaleX st6_add st6_scale s_dpsi obstacle_dynamics oc_psi]. unfold apply_rot_speed_constraint. cmp.
Qed.

Lemma qclip_range : forall y lo hi, (lo <= hi)%Qc -> (lo <= qclip y lo hi)%Qc /\ (qclip y lo hi <= hi)%Qc.
Proof. intros y lo hi K. unfold qclip, qmin, qmax. destruct (qltb_spec y lo); match goal with |- context [qltb hi ?z] => destruct (qltb_spec hi z) end; split; qlra. Qed.

Lemma qclip_id : forall y lo hi, (lo <= y)%Qc -> (y <= hi)%Qc -> qclip y lo hi = y.
Proof. intros y lo hi K1 K2. unfold qclip, qmin, qmax. destruct (qltb_spec y lo); match goal with |- context [qltb hi ?z] => destruct (qltb_spec hi z) end; qlra. Qed.

(** The discrete bicycle dynamics: defined for every input, and the new speed and
    steering angle are within the limits, for whatever values of sine, cosine and
    tangent. *)
Lemma C57_limits_pf : forall T wb lr p x u dt, vparams_ok p = true ->
  exists x', bicycle_step T wb lr p x u dt = Ok x' /\ ((vp_vx_lo p <= vs_vx x')%Qc /\ (vs_vx x' <= vp_vx_hi p)%Qc) /\ (- vp_delta_max p <= vs_delta x')%Qc /\ (vs_delta x' <= vp_delta_max p)%Qc.
Proof.
  intros T wb lr p x u dt H. unfold vparams_ok in H. rewrite !andb_true_iff in H. destruct H as [[[H1 _] H3] _].
  eexists. split; [reflexivity|]. cbn [vs_vx vs_delta]. pose proof (proj1 (qltb_lt _ _) H1) as L1. pose proof (proj1 (qltb_lt _ _) H3) as L3.
  split; apply qclip_range; qlra.
Qed.

(** Position and heading advance by the rates of the old state; speed and steering
    by an admissible acceleration and steering rate, which are the commanded ones if
    these are admissible, unless a limit is reached. *)
Lemma C57_change_pf : forall T wb lr p x u dt x', vparams_ok p = true -> bicycle_step T wb lr p x u dt = Ok x' ->
  let w := (vs_vx x * t_tan T (vs_delta x) / wb)%Qc in
  vs_x x' = (vs_x x + (vs_vx x * t_cos T (vs_psi x) - w * lr * t_sin T (vs_psi x)) * dt)%Qc /\
  vs_y x' = (vs_y x + (vs_vx x * t_sin T (vs_psi x) + w * lr * t_cos T (vs_psi x)) * dt)%Qc /\
  vs_psi x' = (vs_psi x + w * dt)%Qc /\
  exists a r, (vp_acc_lo p <= a)%Qc /\ (a <= vp_acc_hi p)%Qc /\ (- vp_ddelta_max p <= r)%Qc /\ (r <= vp_ddelta_max p)%Qc /\
    ((vp_acc_lo p <= vc_acc u)%Qc -> (vc_acc u <= vp_acc_hi p)%Qc -> a = vc_acc u) /\ ((- vp_ddelta_max p <= vc_ddelta u)%Qc -> (vc_ddelta u <= vp_ddelta_max p)%Qc -> r = vc_ddelta u) /\
    (vs_vx x' = (vs_vx x + a * dt)%Qc \/ (vs_vx x' = vp_vx_lo p /\ (vs_vx x + a * dt < vp_vx_lo p)%Qc) \/ (vs_vx x' = vp_vx_hi p /\ (vp_vx_hi p < vs_vx x + a * dt)%Qc)) /\
    (vs_delta x' = (vs_delta x + r * dt)%Qc \/ (vs_delta x' = (- vp_delta_max p)%Qc /\ (vs_delta x + r * dt < - vp_delta_max p)%Qc) \/ (vs_delta x' = vp_delta_max p /\ (vp_delta_max p < vs_delta x + r * dt)%Qc)).
Proof.
  intros T wb lr p x u dt x' H E w. unfold vparams_ok in H. rewrite !andb_true_iff in H. destruct H as [[[H1 H2] H3] H4].
  pose proof (proj1 (qltb_lt _ _) H1) as L1. pose proof (proj1 (qltb_lt _ _) H2) as L2. pose proof (proj1 (qltb_lt _ _) H3) as L3. pose proof (proj1 (qltb_lt _ _) H4) as L4.
  assert (Q : forall y lo hi, (lo < hi)%Qc -> qclip y lo hi = y \/ (qclip y lo hi = lo /\ (y < lo)%Qc) \/ (qclip y lo hi = hi /\ (hi < y)%Qc)).
  { intros y lo hi K. unfold qclip, qmin, qmax. destruct (qltb_spec y lo); match goal with |- context [qltb hi ?z] => destruct (qltb_spec hi z) end; try qlra; auto. }
  unfold bicycle_step in E. cbv zeta in E. injection E as <-.
  cbn [vs_x vs_y vs_psi vs_vx vs_delta vs_add vs_mul bicycle_rate vc_acc vc_ddelta]. split; [reflexivity|]. split; [reflexivity|]. split; [reflexivity|].
  exists (qclip (vc_acc u) (vp_acc_lo p) (vp_acc_hi p)), (qclip (vc_ddelta u) (- vp_ddelta_max p) (vp_ddelta_max p)).
  destruct (qclip_range (vc_acc u) (vp_acc_lo p) (vp_acc_hi p)) as [A1 A2]; [qlra|].
  destruct (qclip_range (vc_ddelta u) (- vp_ddelta_max p) (vp_ddelta_max p)) as [B1 B2]; [qlra|].
  split; [exact A1|]. split; [exact A2|]. split; [exact B1|]. split; [exact B2|]. split; [apply qclip_id|]. split; [apply qclip_id|].
  split; apply Q; qlra.
Qed.

(** The thrust that is applied is within its limits, or zero when the tank is empty. *)
Lemma C58_thrust_pf : forall p x u, rp_Flo p <= rp_Fhi p ->
  (rp_mv p < r_m x -> within (fst (rocket_thrust p x u)) (rp_Flo p) (rp_Fhi p) /\ within (snd (rocket_thrust p x u)) (rp_Flo p) (rp_Fhi p)) /\
  (r_m x <= rp_mv p -> rocket_thrust p x u = (0, 0)).
Proof.
  intros p x u H. unfold rocket_thrust. split; intros K.
  - rewrite (proj2 (leb_false _ _) K). cbn [fst snd]. split; apply force_within; exact H.
  - rewrite (proj2 (leb_spec _ _) K). reflexivity.
Qed.

Lemma C58_spaceship_thrust_pf : forall p x u, rp_Flo p <= rp_Fhi p ->
  (rp_mv p < r_m x -> within (spaceship_thrust p x u) (rp_Flo p) (rp_Fhi p)) /\ (r_m x <= rp_mv p -> spaceship_thrust p x u = 0).
Proof.
  intros p x u H. unfold spaceship_thrust. split; intros K.
  - rewrite (proj2 (leb_false _ _) K). apply force_within; exact H.
  - rewrite (proj2 (leb_spec _ _) K). reflexivity.
Qed.

Lemma rocket_mass_rate : forall p Iz l x u, 0 <= rp_Flo p <= rp_Fhi p -> 0 <= rp_CT p -> r_m (rocket_dynamics p Iz l x u) <= 0 /\ (r_m x <= rp_mv p -> r_m (rocket_dynamics p Iz l x u) = 0).
Proof.
  intros p Iz l x u H C. unfold rocket_dynamics. destruct (rocket_thrust p x u) as [F1 F2] eqn:E. cbn [r_m]. unfold rocket_thrust in E.
  destruct (leb (r_m x) (rp_mv p)) eqn:L; injection E as <- <-.
  - split; [lra| intros _; ring].
  - apply leb_false in L. pose proof (force_within (rc_l u) (rp_Flo p) (rp_Fhi p) ltac:(lra)) as [A _]. pose proof (force_within (rc_r u) (rp_Flo p) (rp_Fhi p) ltac:(lra)) as [B _]. split; [nra| intros; lra].
Qed.

Lemma spaceship_mass_rate : forall p Iz l x u, 0 <= rp_Flo p <= rp_Fhi p -> 0 <= rp_CT p -> r_m (spaceship_dynamics p Iz l x u) <= 0 /\ (r_m x <= rp_mv p -> r_m (spaceship_dynamics p Iz l x u) = 0).
Proof.
  intros p Iz l x u H C. unfold spaceship_dynamics. cbn [r_m]. unfold spaceship_thrust. destruct (leb (r_m x) (rp_mv p)) eqn:L.
  - split; [lra| intros _; ring].
  - apply leb_false in L. pose proof (force_within (ss_thrust u) (rp_Flo p) (rp_Fhi p) ltac:(lra)) as [A _]. split; [nra| intros; lra].
Qed.

Lemma mass_mono : forall m r T mv, evolves m r T -> (forall t, 0 <= t < T -> r t <= 0) -> (forall t, 0 <= t < T -> m t <= mv -> r t = 0) ->
  (forall s t, 0 <= s <= t -> t <= T -> m t <= m s) /\ (forall t, 0 <= t <= T -> Rmin mv (m 0) <= m t).
Proof.
  intros m r T mv [C D] Hr Hz. split.
  - intros s t H1 H2. apply (decreasing m T C s t); try lra. intros q Hq. exists (r q). split; [apply D; lra| apply Hr; lra].
  - intros t Ht. apply (stays_above m T _ C); [| apply Rmin_r| exact Ht]. intros q Hq. exists (r q). split; [apply D; exact Hq|]. intros K.
    rewrite Hz; [lra| exact Hq|]. pose proof (Rmin_l mv (m 0)). lra.
Qed.

(** With non-negative force limits, under every command signal the mass of a rocket
    never increases, and never falls below the mass of the vehicle without fuel. *)
Lemma C58_rocket_pf : forall p Iz l u x T, 0 <= rp_Flo p <= rp_Fhi p -> 0 <= rp_CT p -> motion8 (fun t => rocket_dynamics p Iz l (x t) (u t)) x T ->
  (forall s t, 0 <= s <= t -> t <= T -> r_m (x t) <= r_m (x s)) /\ (forall t, 0 <= t <= T -> Rmin (rp_mv p) (r_m (x 0)) <= r_m (x t)).
Proof.
  intros p Iz l u x T H C (_ & _ & _ & _ & _ & _ & _ & M).
  apply (mass_mono (fun t => r_m (x t)) _ T (rp_mv p) M); intros t Ht; destruct (rocket_mass_rate p Iz l (x t) (u t) H C) as [A B]; [exact A| exact B].
Qed.

Lemma C58_spaceship_partial_pf : forall p Iz l u x T, 0 <= rp_Flo p <= rp_Fhi p -> 0 <= rp_CT p -> motion8 (fun t => spaceship_dynamics p Iz l (x t) (u t)) x T ->
  (forall s t, 0 <= s <= t -> t <= T -> r_m (x t) <= r_m (x s)) /\ (forall t, 0 <= t <= T -> Rmin (rp_mv p) (r_m (x 0)) <= r_m (x t)).
Proof.
  intros p Iz l u x T H C (_ & _ & _ & _ & _ & _ & _ & M).
  apply (mass_mono (fun t => r_m (x t)) _ T (rp_mv p) M); intros t Ht; destruct (spaceship_mass_rate p Iz l (x t) (u t) H C) as [A B]; [exact A| exact B].
Qed.

(** The thrust of the default spaceship may be negative, and then it gains mass. *)
Lemma C58_spaceship_refuted_pf : forall Iz l x, rp_mv sp_default < r_m x -> 0 < r_m (spaceship_dynamics sp_default Iz l x (mkSSC (-2) 0)).
Proof.
  intros Iz l x H. unfold spaceship_dynamics, spaceship_thrust. cbn [r_m]. rewrite (proj2 (leb_false _ _) H). cbn [ss_thrust].
  unfold apply_force_limits, sp_default. cbn [rp_CT rp_Flo rp_Fhi]. cmp. unfold Rmax, Rmin. destruct (Rle_dec (-2) 2); [|lra]. destruct (Rle_dec (-2) (-2)); lra.
Qed.

(** The force never exceeds the peak factor, for both formulas and all parameters. *)
Lemma C59_bounded_pf : forall t s, Rabs (pac_evaluate t s) <= Rabs (pac_D t).
Proof.
  intros t s. destruct t; cbn [pac_evaluate pac_D]; rewrite Rabs_mult; rewrite <- (Rmult_1_r (Rabs D)) at 2; (apply Rmult_le_compat_l; [apply Rabs_pos| apply sin_bound]).
Qed.

(** No slip, no force. *)
Lemma C59_zero_pf : forall t, pac_evaluate t 0 = 0.
Proof.
  intros [B C D|B C D E]; cbn [pac_evaluate]; rewrite Rmult_0_r, atan_0; [rewrite Rmult_0_r, sin_0; ring|].
  replace (0 - E * (0 - E * 0)) with 0 by ring. rewrite atan_0, Rmult_0_r, sin_0. ring.
Qed.

(** Opposite slips give opposite forces. *)
Lemma C59_odd_pf : forall t s, pac_evaluate t (- s) = - pac_evaluate t s.
Proof.
  intros [B C D|B C D E] s; cbn [pac_evaluate]; replace (B * - s) with (- (B * s)) by ring; rewrite atan_opp.
  - replace (C * - atan (B * s)) with (- (C * atan (B * s))) by ring. rewrite sin_neg. ring.
  - replace (- (B * s) - E * (- (B * s) - E * - atan (B * s))) with (- (B * s - E * (B * s - E * atan (B * s)))) by ring. rewrite atan_opp.
    replace (C * - atan (B * s - E * (B * s - E * atan (B * s)))) with (- (C * atan (B * s - E * (B * s - E * atan (B * s))))) by ring. rewrite sin_neg. ring.
Qed.

(** The peak factor is reached by a three-parameter tyre whose shape factor is
    above one. *)
Lemma C59_peak_pf : forall B C D, B <> 0 -> 1 < C -> pac_evaluate (P3 B C D) (tan (PI / 2 / C) / B) = D.
Proof.
  intros B C D HB HC. cbn [pac_evaluate]. replace (B * (tan (PI / 2 / C) / B)) with (tan (PI / 2 / C)) by (field; exact HB).
  pose proof PI_RGT_0. assert (K : 0 < PI / 2 / C < PI / 2).
  { split; [apply Rdiv_lt_0_compat; lra|]. apply (Rmult_lt_reg_r C); [lra|]. unfold Rdiv at 1. rewrite Rmult_assoc, Rinv_l, Rmult_1_r by lra. nra. }
  rewrite atan_tan by lra. replace (C * (PI / 2 / C)) with (PI / 2) by (field; lra). rewrite sin_PI2. ring.
Qed.

(** The default tyres asked from the four-parameter class are not four-parameter tyres. *)
Lemma C59_default_4p_refuted_pf : is_4p (default_car_front true) = false /\ is_4p (default_car_rear true) = false /\ is_4p (default_truck_front true) = false /\
  is_4p (default_truck_rear true) = false /\ is_4p (default_bicycle_front true) = false /\ is_4p (default_bicycle_rear true) = false.
Proof. repeat split; reflexivity. Qed.

(** Along every motion of the kinematic vehicle, whatever the command signal, speed
    and steering angle stay within their limits. *)
Lemma C81_vehicle_pf : forall g p u x T, vpar_ok p -> vehicle_motion g p u x T ->
  within (v_vx (x 0)) (mp_vlo (vp_m p)) (mp_vhi (vp_m p)) -> within (v_delta (x 0)) (- vp_dmax p) (vp_dmax p) ->
  forall t, 0 <= t <= T -> within (v_vx (x t)) (mp_vlo (vp_m p)) (mp_vhi (vp_m p)) /\ within (v_delta (x t)) (- vp_dmax p) (vp_dmax p).
Proof.
  intros g p u x T (_ & Hd & Hdd) (_ & _ & _ & MV & MD) I1 I2 t Ht. split.
  - refine (stays_within _ _ T _ _ MV _ _ I1 t Ht); intros s Hs K; cbn [v_vx vehicle_dynamics]; [apply speed_at_max; exact K| apply speed_at_min; exact K].
  - refine (stays_within _ _ T _ _ MD _ _ I2 t Ht); intros s Hs K; cbn [v_delta vehicle_dynamics]; [apply steer_at_max; assumption| apply steer_at_min; assumption].
Qed.

(** Pedestrians that have not collided; dynamic obstacles, in all three components. *)
Lemma C81_pedestrian_pf : forall p u x T, motion6 (fun t => pedestrian_dynamics p false (x 0) (x t) (u t)) x T ->
  within (s_vx (x 0)) (mp_vlo (pp_m p)) (mp_vhi (pp_m p)) -> forall t, 0 <= t <= T -> within (s_vx (x t)) (mp_vlo (pp_m p)) (mp_vhi (pp_m p)).
Proof.
  intros p u x T (_ & _ & _ & MV & _) I t Ht.
  refine (stays_within _ _ T _ _ MV _ _ I t Ht); intros s Hs K; cbn [s_vx pedestrian_dynamics]; [pose proof (speed_at_max _ (pc_acc (u s)) _ K)| pose proof (speed_at_min _ (pc_acc (u s)) _ K)]; lra.
Qed.

Lemma C81_obstacle_pf : forall p lo hi u x T, motion6 (fun t => obstacle_dynamics p lo hi (x t) (u t)) x T ->
  within (s_vx (x 0)) (mp_vlo p) (mp_vhi p) -> within (s_vy (x 0)) (mp_vlo p) (mp_vhi p) -> within (s_dpsi (x 0)) lo hi ->
  forall t, 0 <= t <= T -> within (s_vx (x t)) (mp_vlo p) (mp_vhi p) /\ within (s_vy (x t)) (mp_vlo p) (mp_vhi p) /\ within (s_dpsi (x t)) lo hi.
Proof.
  intros p lo hi u x T (_ & _ & _ & MX & MY & MP) I1 I2 I3 t Ht. split; [|split].
  - refine (stays_within _ _ T _ _ MX _ _ I1 t Ht); intros s Hs K; cbn [s_vx obstacle_dynamics]; [apply speed_at_max; exact K| apply speed_at_min; exact K].
  - refine (stays_within _ _ T _ _ MY _ _ I2 t Ht); intros s Hs K; cbn [s_vy obstacle_dynamics]; [apply speed_at_max; exact K| apply speed_at_min; exact K].
  - refine (stays_within _ _ T _ _ MP _ _ I3 t Ht); intros s Hs K; cbn [s_dpsi obstacle_dynamics]; [apply rot_at_max; exact K| apply rot_at_min; exact K].
Qed.

(** The rotational speed of spacecraft, the nozzle angles of rockets and spaceships. *)
Lemma C81_spacecraft_rotation_pf : forall p lo hi w m Iz u x T, motion6 (fun t => spacecraft_dynamics p lo hi w m Iz (x t) (u t)) x T ->
  within (s_dpsi (x 0)) lo hi -> forall t, 0 <= t <= T -> within (s_dpsi (x t)) lo hi.
Proof.
  intros p lo hi w m Iz u x T (_ & _ & _ & _ & _ & MP) I t Ht.
  refine (stays_within _ _ T _ _ MP _ _ I t Ht); intros s Hs K; cbn [s_dpsi spacecraft_dynamics]; [apply rot_at_max; exact K| apply rot_at_min; exact K].
Qed.

Lemma C81_rocket_nozzle_pf : forall p Iz l u x T, motion8 (fun t => rocket_dynamics p Iz l (x t) (u t)) x T ->
  within (r_ang (x 0)) (rp_lo p) (rp_hi p) -> forall t, 0 <= t <= T -> within (r_ang (x t)) (rp_lo p) (rp_hi p).
Proof.
  intros p Iz l u x T (_ & _ & _ & _ & _ & _ & MA & _) I t Ht.
  assert (E : forall s, r_ang (rocket_dynamics p Iz l (x s) (u s)) = apply_full_ang_vel_limits (r_ang (x s)) (rc_dphi (u s)) (rp_lo p) (rp_hi p) (rp_dlo p) (rp_dhi p)) by (intros s; unfold rocket_dynamics; destruct (rocket_thrust p (x s) (u s)); reflexivity).
  refine (stays_within _ _ T _ _ MA _ _ I t Ht); intros s Hs K; cbv beta; rewrite E; [apply ang_at_max; exact K| apply ang_at_min; exact K].
Qed.

Lemma C81_spaceship_nozzle_pf : forall p Iz l u x T, motion8 (fun t => spaceship_dynamics p Iz l (x t) (u t)) x T ->
  within (r_ang (x 0)) (rp_lo p) (rp_hi p) -> forall t, 0 <= t <= T -> within (r_ang (x t)) (rp_lo p) (rp_hi p).
Proof.
  intros p Iz l u x T (_ & _ & _ & _ & _ & _ & MA & _) I t Ht.
  refine (stays_within _ _ T _ _ MA _ _ I t Ht); intros s Hs K; cbn [r_ang spaceship_dynamics]; [apply ang_at_max; exact K| apply ang_at_min; exact K].
Qed.

(** Spacecraft ignore their speed limits: at constant full thrust, from rest, every
    speed limit is exceeded sooner or later. *)
Lemma C81_spacecraft_speed_refuted_pf : forall p lo hi w m Iz, mparams_ok p -> 0 < mp_ahi p -> mp_alo p <= mp_ahi p -> lo <= 0 <= hi ->
  exists x T, 0 <= T /\ motion6 (fun t => spacecraft_dynamics p lo hi w m Iz (x t) (mkSC (mp_ahi p) (mp_ahi p))) x T /\ s_vx (x 0) = 0 /\ mp_vhi p < s_vx (x T).
Proof.
  intros p lo hi w m Iz Hp Ha _ Hd. set (a := mp_ahi p + mp_ahi p). set (T := (Rabs (mp_vhi p) + 1) / a).
  assert (Hapos : 0 < a) by (unfold a; lra). assert (HT : 0 <= T) by (unfold T; apply Rlt_le; apply Rdiv_lt_0_compat; [pose proof (Rabs_pos (mp_vhi p)); lra| exact Hapos]).
  exists (fun t => mk6 (a / 2 * (t * t)) 0 0 (0 + a * t) 0 0), T. split; [exact HT|].
  assert (A : apply_acceleration_limits (mp_ahi p) p = mp_ahi p) by (destruct Hp; unfold apply_acceleration_limits; cmp).
  split; [|split; [cbn; ring|]].
  - unfold motion6, spacecraft_dynamics. cbn [s_x s_y s_psi s_vx s_vy s_dpsi sc_l sc_r]. rewrite A, cos_0, sin_0.
    assert (Z : forall q, apply_rot_speed_constraint 0 (q * (mp_ahi p - mp_ahi p)) lo hi = 0) by (intros q; replace (q * (mp_ahi p - mp_ahi p)) with 0 by ring; unfold apply_rot_speed_constraint; cmp).
    rewrite Z.
    split; [eapply evolves_ext; [apply (evolves_square a T HT)| reflexivity| intros; cbn; ring]|].
    split; [eapply evolves_ext; [apply evolves_const| reflexivity| intros; cbn; ring]|].
    split; [eapply evolves_ext; [apply evolves_const| reflexivity| intros; cbn; ring]|].
    split; [eapply evolves_ext; [apply (evolves_affine 0 a)| reflexivity| intros; cbn; unfold a; ring]|].
    split; (eapply evolves_ext; [apply evolves_const| reflexivity| intros; cbn; ring]).
  - cbn [s_vx]. unfold T. replace (0 + a * ((Rabs (mp_vhi p) + 1) / a)) with (Rabs (mp_vhi p) + 1) by (field; lra). pose proof (Rle_abs (mp_vhi p)). lra.
Qed.

Lemma ok3 : forall (a b c a' b' c' : R), a = a' -> b = b' -> c = c' -> @Ok (vec * R) ((a, b), c) = Ok ((a', b'), c').
Proof. intros; subst; reflexivity. Qed.

(** The velocity reported in the world frame is the rate of change of the pose. *)
Lemma C82_vehicle_pf : forall g p x u, let d := vehicle_dynamics g p x u in
  get_velocity KVehicle (vg_wheelbase g) (vg_lr g) (vst_obj x) false = Ok ((v_x d, v_y d), v_psi d).
Proof. intros g p x u. cbn. unfold rot. cbn [fst snd]. apply ok3; ring. Qed.

(** For the dynamic vehicle at 0.1 m/s or more. *)
Lemma C82_vehicle_dyn_partial_pf : forall g p pf pr c self x u d w l, 1 / 10 <= d_vx x -> vehicle_dyn_dynamics g p pf pr c self x u = Some d ->
  get_velocity KVehicleDyn w l (dst_obj x) false = Ok ((d_x d, d_y d), d_psi d).
Proof.
  intros g p pf pr c self x u d w l H E. unfold vehicle_dyn_dynamics in E. destruct (vehicle_friction (vg_type g) c self) as [[fx fy] fpsi].
  rewrite (proj2 (ltb_false _ _) H) in E. destruct (wheel_forces g p pf pr x u) as [[F1 [F2 F2y]]|]; [|discriminate]. cbv zeta in E. injection E as <-.
  cbn. unfold rot. cbn [fst snd]. apply ok3; ring.
Qed.

(** Below, the motion follows the steering angle and the reported lateral and rotational
    velocities are unrelated to it. *)
Lemma C82_vehicle_dyn_refuted_pf : exists x, forall u w l d, vehicle_dyn_dynamics vg_car vp_rcar (default_car_front true) (default_car_rear true) false x x u = Some d ->
  get_velocity KVehicleDyn w l (dst_obj x) false = Ok ((0, 1), 2) /\ d_x d = 0 /\ d_y d = 0 /\ d_psi d = 0.
Proof.
  exists (mkD 0 0 0 0 1 2 0). intros u w l d E. unfold vehicle_dyn_dynamics, ltb in E. cbn [vehicle_friction d_vx] in E. destruct (Rlt_dec 0 (1 / 10)); [|lra].
  cbv zeta in E. injection E as <-. cbn -[vg_wheelbase vg_lr]. unfold rot. cbn [fst snd]. rewrite sin_0, cos_0. split; [apply ok3; ring|]. unfold Rdiv. repeat split; ring.
Qed.

Lemma C82_spacecraft_pf : forall p lo hi w m Iz x u a b, let d := spacecraft_dynamics p lo hi w m Iz x u in
  get_velocity KSpacecraft a b (st6_obj "SpacecraftState" x) false = Ok ((s_x d, s_y d), s_psi d).
Proof. intros. cbn. unfold rot. cbn [fst snd]. apply ok3; ring. Qed.

Lemma C82_obstacle_pf : forall p lo hi x u a b, let d := obstacle_dynamics p lo hi x u in
  get_velocity KDynObstacle a b (st6_obj "DynObstacleState" x) false = Ok ((s_x d, s_y d), s_psi d).
Proof. intros. cbn. unfold rot. cbn [fst snd]. apply ok3; ring. Qed.

Lemma C82_spaceship_pf : forall p Iz l x u a b, let d := spaceship_dynamics p Iz l x u in
  get_velocity KSpaceship a b (st8_obj "SpaceshipState" "delta" x) false = Ok ((r_x d, r_y d), r_psi d).
Proof. intros. cbn. unfold rot. cbn [fst snd]. apply ok3; ring. Qed.

(** The linear velocity of a pedestrian is reported correctly, the rotation is not. *)
Lemma C82_pedestrian_partial_pf : forall p c self x u a b, let d := pedestrian_dynamics p c self x u in
  exists om, get_velocity KPedestrian a b (st6_obj "PedestrianState" x) false = Ok ((s_x d, s_y d), om).
Proof.
  intros. exists (s_dpsi x). unfold d, pedestrian_dynamics. destruct c; cbn; unfold rot; cbn [fst snd]; apply ok3; ring.
Qed.

Lemma C82_pedestrian_refuted_pf : exists x, forall c self a b, let d := pedestrian_dynamics pp_default c self x (mkPC 0 1) in
  s_psi d = 1 /\ get_velocity KPedestrian a b (st6_obj "PedestrianState" x) false = Ok ((s_x d, s_y d), 0).
Proof.
  exists (mk6 0 0 0 1 0 0). intros c self a b. cbv zeta. assert (K : rotation_constraint 1 (pp_dtheta pp_default) = 1).
  { unfold rotation_constraint, pp_default. cbn [pp_dtheta]. pose proof PI2_1. cmp. }
  unfold pedestrian_dynamics. cbn [pc_dpsi pc_acc]. rewrite K. destruct c; (split; [reflexivity|]); cbn; unfold rot; cbn [fst snd]; apply ok3; ring.
Qed.

(** A rocket whose velocity is given in the world frame by the dynamics, but is
    reported as if it were given in the frame of the rocket. *)
Lemma C82_rocket_partial_pf : forall p Iz l x u a b, let d := rocket_dynamics p Iz l x u in
  get_velocity KRocket a b (st8_obj "RocketState" "phi" x) true = Ok ((r_x d, r_y d), r_psi d).
Proof. intros. unfold d, rocket_dynamics. destruct (rocket_thrust p x u). reflexivity. Qed.

Lemma C82_rocket_refuted_pf : exists x, forall p Iz l u a b, let d := rocket_dynamics p Iz l x u in
  r_x d = 1 /\ r_y d = 0 /\ get_velocity KRocket a b (st8_obj "RocketState" "phi" x) false = Ok ((0, 1), r_psi d).
Proof.
  exists (mk8 0 0 (PI / 2) 1 0 0 0 3). intros p Iz l u a b d. unfold d, rocket_dynamics. destruct (rocket_thrust p _ u). cbn [r_x r_y r_vx r_vy r_psi r_dpsi].
  split; [reflexivity|]. split; [reflexivity|]. cbn. unfold rot. cbn [fst snd]. rewrite cos_PI2, sin_PI2. apply ok3; ring.
Qed.

(** A differential drive robot rolls: the point of each wheel on the axle moves along the
    heading with the speed of the rim of the wheel, and not sideways. *)
Lemma C82_diff_drive_rolls_pf : forall wb wr lo hi x u, wb <> 0 -> lo <= wc_l u <= hi -> lo <= wc_r u <= hi -> let d := diff_drive_dynamics wb wr lo hi x u in
  let speed_at y := (w_x d - w_psi d * y * cos (w_psi x), w_y d - w_psi d * y * sin (w_psi x)) in
  speed_at (wb / 2) = vscale (wc_l u * wr) (cos (w_psi x), sin (w_psi x)) /\ speed_at (- (wb / 2)) = vscale (wc_r u * wr) (cos (w_psi x), sin (w_psi x)).
Proof.
  intros wb wr lo hi x u W L R. cbv zeta. unfold diff_drive_dynamics. cbn [w_x w_y w_psi]. replace (rclip (wc_l u) lo hi) with (wc_l u) by (unfold rclip, Rmax, Rmin; repeat destruct Rle_dec; lra). replace (rclip (wc_r u) lo hi) with (wc_r u) by (unfold rclip, Rmax, Rmin; repeat destruct Rle_dec; lra). unfold vscale. cbn [fst snd]. split; f_equal; field; exact W.
Qed.

(** A differential drive moves but reports that it stands still. *)
Lemma C82_diff_drive_refuted_pf : exists x u, forall a b, let d := diff_drive_dynamics 1 (2 / 10) (-5) 5 x u in
  w_x d = 1 /\ get_velocity KDiffDrive a b (st3_obj x) false = Ok ((0, 0), 0).
Proof.
  exists (mk3 0 0 0), (mkWC 5 5). intros a b. split; [|reflexivity]. cbn. unfold rclip, Rmin, Rmax. rewrite cos_0. repeat destruct (Rle_dec _ _); lra.
Qed.

Lemma saturation_total : forall t s Fn, Fn * pac_D t <> 0 -> exists r, saturation (pac_evaluate t s * Fn) Fn (pac_D t) = Some r /\ 0 <= r <= 1 /\ r * r + (pac_evaluate t s / pac_D t) * (pac_evaluate t s / pac_D t) = 1.
Proof.
  intros t s Fn H. unfold saturation. destruct (Req_EM_T (Fn * pac_D t) 0); [contradiction|].
  assert (HF : Fn <> 0) by (intros ->; apply H; ring). assert (HD : pac_D t <> 0) by (intros Z; apply H; rewrite Z; ring).
  set (q := pac_evaluate t s / pac_D t). replace (pac_evaluate t s * Fn / (Fn * pac_D t)) with q by (unfold q; field; split; assumption).
  assert (Q : q * q <= 1).
  { assert (Rabs q <= 1). { unfold q, Rdiv. rewrite Rabs_mult, Rabs_inv. pose proof (C59_bounded_pf t s). pose proof (Rabs_pos_lt _ HD). apply (Rmult_le_reg_r (Rabs (pac_D t))); [assumption|]. rewrite Rmult_assoc, Rinv_l, Rmult_1_r by lra. lra. }
    pose proof (Rabs_pos q). rewrite <- (Rabs_right (q * q)) by nra. rewrite Rabs_mult. nra. }
  cbv zeta. replace (1 - q ^ 2) with (1 - q * q) by ring. rewrite (proj2 (ltb_false _ _)) by lra.
  exists (sqrt (1 - q * q)). split; [reflexivity|]. split; [split; [apply sqrt_pos|]|].
  - rewrite <- sqrt_1 at 2. apply sqrt_le_1; nra.
  - rewrite sqrt_sqrt by lra. lra.
Qed.

(** The normal forces of the default vehicles push the tyres onto the road, whatever
    the command; in general they do as long as the load transfer is smaller than the
    weight on the axle. *)
Lemma C83_normal_forces_pf : forall g acc, 0 < vg_m g -> 0 < vg_wheelbase g -> - (G * vg_lf g) < vg_h g * acc < G * vg_lr g ->
  fst (normal_forces g acc) < 0 /\ snd (normal_forces g acc) < 0 /\ fst (normal_forces g acc) + snd (normal_forces g acc) = - (vg_m g * G).
Proof.
  intros g acc Hm Hw H. unfold normal_forces. cbn [fst snd]. assert (Hi : 0 < / vg_wheelbase g) by (apply Rinv_0_lt_compat; exact Hw). unfold Rdiv.
  assert (A1 : 0 < vg_m g * (G * vg_lr g - vg_h g * acc)) by (apply Rmult_lt_0_compat; lra).
  assert (A2 : 0 < vg_m g * (G * vg_lf g + vg_h g * acc)) by (apply Rmult_lt_0_compat; lra).
  split; [|split].
  - pose proof (Rmult_lt_0_compat _ _ A1 Hi). lra.
  - pose proof (Rmult_lt_0_compat _ _ A2 Hi). lra.
  - unfold vg_wheelbase in *. field. lra.
Qed.

Definition default_vehicle (g : vgeo) (p : vpar) : Prop := (g = vg_car /\ p = vp_rcar) \/ (g = vg_truck /\ p = vp_rtruck) \/ (g = vg_bicycle /\ p = vp_rbicycle).

Lemma default_normal : forall g p v a, default_vehicle g p -> fst (normal_forces g (apply_full_acceleration_limits v a (vp_m p))) < 0 /\ snd (normal_forces g (apply_full_acceleration_limits v a (vp_m p))) < 0.
Proof.
  intros g p v a H.
  assert (W : within (apply_full_acceleration_limits v a (vp_m p)) (mp_alo (vp_m p)) (mp_ahi (vp_m p))).
  { apply C51_within_partial_pf; destruct H as [[-> ->] | [[-> ->] | [-> ->]]]; unfold mparams_ok, vp_rcar, vp_rtruck, vp_rbicycle; cbn [vp_m mp_vlo mp_vhi mp_alo mp_ahi]; lra. }
  destruct W as [W1 W2].
  destruct (C83_normal_forces_pf g (apply_full_acceleration_limits v a (vp_m p))) as (A & B & _); [..| split; assumption];
  destruct H as [[-> ->] | [[-> ->] | [-> ->]]]; unfold vg_wheelbase, vg_car, vg_truck, vg_bicycle, vp_rcar, vp_rtruck, vp_rbicycle, G in *; cbn [vg_m vg_lf vg_lr vg_h vp_m mp_alo mp_ahi] in *; lra.
Qed.

(** At every tyre the longitudinal force is the demanded one times a factor between 0 and
    1, and the two are related by the friction circle: factor^2 + (lateral force /
    (normal force * D))^2 = 1; the square root is never taken of a negative number. *)
Lemma C83_friction_circle_pf : forall g p pf pr x u F1x F1y F2x F2y, wheel_forces g p pf pr x u = Some ((F1x, F1y), (F2x, F2y)) ->
  let acc := apply_full_acceleration_limits (d_vx x) (c_acc u) (vp_m p) in
  let (N1, N2) := normal_forces g acc in
  exists k1 k2, 0 <= k1 <= 1 /\ 0 <= k2 <= 1 /\
  F1x = k1 * (fst (acceleration_split (vg_type g) (vg_m g * acc)) + vg_c_rr_f g * N1) /\ F2x = k2 * (snd (acceleration_split (vg_type g) (vg_m g * acc)) + vg_c_rr_r g * N2) /\
  k1 * k1 + (F1y / (N1 * pac_D pf)) * (F1y / (N1 * pac_D pf)) = 1 /\ k2 * k2 + (F2y / (N2 * pac_D pr)) * (F2y / (N2 * pac_D pr)) = 1.
Proof.
  intros g p pf pr x u F1x F1y F2x F2y E acc. unfold wheel_forces in E. fold acc in E. destruct (normal_forces g acc) as [N1 N2]. destruct (acceleration_split (vg_type g) (vg_m g * acc)) as [A1 A2].
  destruct (np_atan_div _ _) as [s1|] in E; [|discriminate].
  assert (S : forall Fn t s, saturation (pac_evaluate t s * Fn) Fn (pac_D t) = None \/ exists r, saturation (pac_evaluate t s * Fn) Fn (pac_D t) = Some r /\ 0 <= r <= 1 /\ r * r + (pac_evaluate t s * Fn / (Fn * pac_D t)) * (pac_evaluate t s * Fn / (Fn * pac_D t)) = 1).
  { intros Fn t s. destruct (Req_EM_T (Fn * pac_D t) 0) as [Z|Z]; [left; unfold saturation; destruct (Req_EM_T (Fn * pac_D t) 0); [reflexivity| contradiction]|].
    right. destruct (saturation_total t s Fn Z) as (r & R1 & R2 & R3). exists r. split; [exact R1|]. split; [exact R2|].
    replace (pac_evaluate t s * Fn / (Fn * pac_D t)) with (pac_evaluate t s / pac_D t) by (field; split; intros Q; apply Z; rewrite Q; ring). exact R3. }
  destruct (S N1 pf s1) as [Z | (k1 & K1 & R1 & C1)]; [rewrite Z in E; discriminate|]. rewrite K1 in E.
  destruct (np_atan_div (d_vy x - vg_lr g * d_dpsi x) (d_vx x)) as [s2|] in E; [|discriminate].
  destruct (S N2 pr s2) as [Z | (k2 & K2 & R2 & C2)]; [rewrite Z in E; discriminate|]. rewrite K2 in E. cbv zeta in E. injection E as <- <- <- <-.
  exists k1, k2. cbn [fst snd]. split; [exact R1|]. split; [exact R2|]. split; [ring|]. split; [ring|]. split; assumption.
Qed.

(** The dynamics of the default vehicles are defined in every state whose front wheel
    does not stand still, and for every command. *)
Lemma C83_defined_pf : forall g p pf pr c self x u, default_vehicle g p -> pac_D pf <> 0 -> pac_D pr <> 0 ->
  rot (- d_delta x) (d_vx x, d_vy x + vg_lf g * d_dpsi x) <> (0, 0) -> exists d, vehicle_dyn_dynamics g p pf pr c self x u = Some d.
Proof.
  intros g p pf pr c self x u H D1 D2 W. unfold vehicle_dyn_dynamics. destruct (vehicle_friction (vg_type g) c self) as [[fx fy] fpsi].
  destruct (ltb (d_vx x) (1 / 10)) eqn:L; [eexists; reflexivity|]. apply ltb_false in L.
  unfold wheel_forces. pose proof (default_normal g p (d_vx x) (c_acc u) H) as [N1 N2].
  destruct (normal_forces g _) as [F1 F2]. cbn [fst snd] in N1, N2. destruct (acceleration_split _ _) as [A1 A2].
  assert (S1 : forall y z, (z, y) <> (0, 0) -> exists s, np_atan_div y z = Some s).
  { intros y z K. unfold np_atan_div. destruct (Req_EM_T z 0) as [->|]; [|eexists; reflexivity]. unfold ltb. destruct (Rlt_dec 0 y); [eexists; reflexivity|]. destruct (Rlt_dec y 0); [eexists; reflexivity|].
    exfalso. apply K. f_equal. lra. }
  destruct (S1 (snd (rot (- d_delta x) (d_vx x, d_vy x + vg_lf g * d_dpsi x))) (fst (rot (- d_delta x) (d_vx x, d_vy x + vg_lf g * d_dpsi x)))) as [s1 E1]; [rewrite <- surjective_pairing; exact W|].
  rewrite E1. destruct (saturation_total pf s1 F1) as (r1 & R1 & _); [apply Rmult_integral_contrapositive_currified; [lra| exact D1]|]. rewrite R1.
  destruct (S1 (d_vy x - vg_lr g * d_dpsi x) (d_vx x)) as [s2 E2]; [intros K; injection K as K1 K2; lra|]. rewrite E2.
  destruct (saturation_total pr s2 F2) as (r2 & R2 & _); [apply Rmult_integral_contrapositive_currified; [lra| exact D2]|]. rewrite R2.
  eexists. reflexivity.
Qed.

(** Braking brakes and accelerating accelerates: the demanded force is split between
    front and rear without loss. *)
Lemma C83_split_pf : forall t F, let (a, b) := acceleration_split t F in a + b = F /\ (F <= 0 -> b <= 0 /\ a <= b) /\ (0 <= F -> 0 <= a /\ a = b).
Proof. intros t F. unfold acceleration_split. unfold leb. destruct (Rle_dec F 0), (two_wheels t); repeat split; lra. Qed.

(** The dynamic vehicle is accelerated beyond its maximal speed by its rotation: at the
    maximal speed, without any command, its speed increases. *)
Lemma C81_vehicle_dyn_refuted_pf : exists x d, d_vx x = mp_vhi (vp_m vp_rcar) /\
  vehicle_dyn_dynamics vg_car vp_rcar (default_car_front true) (default_car_rear true) false x x (mkVCm 0 0) = Some d /\ 0 < d_vx d.
Proof.
  pose (x := mkD 0 0 0 (130 / (36 / 10)) 1 1 0).
  destruct (C83_defined_pf vg_car vp_rcar (default_car_front true) (default_car_rear true) false x x (mkVCm 0 0)) as [d E].
  - left. split; reflexivity.
  - cbn. lra.
  - cbn. lra.
  - unfold rot, x. cbn [fst snd d_delta d_vx]. intros K. injection K as K _. rewrite Ropp_0, cos_0, sin_0 in K. lra.
  - exists x, d. split; [reflexivity|]. split; [exact E|].
    unfold vehicle_dyn_dynamics in E. cbn [vehicle_friction] in E. rewrite (proj2 (ltb_false (d_vx x) (1 / 10))) in E by (cbn; lra).
    destruct (wheel_forces vg_car vp_rcar _ _ x (mkVCm 0 0)) as [[[F1x F1y] [F2x F2y]]|] eqn:W; [|discriminate].
    pose proof (C83_friction_circle_pf _ _ _ _ _ _ _ _ _ _ W) as K. cbv zeta in K.
    replace (apply_full_acceleration_limits (d_vx x) (c_acc (mkVCm 0 0)) (vp_m vp_rcar)) with 0 in K by (unfold apply_full_acceleration_limits, apply_speed_constraint, apply_acceleration_limits, vp_rcar, x; cbn [vp_m mp_vlo mp_vhi mp_alo mp_ahi d_vx c_acc]; cmp).
    unfold normal_forces in K. cbv zeta in K. destruct K as (k1 & k2 & B1 & B2 & -> & -> & _).
    cbv zeta in E. injection E as <-. cbn [d_vx]. unfold rot, x, acceleration_split, leb, G, rho, vg_wheelbase, vg_car.
    cbn [fst snd d_delta d_vx d_vy d_dpsi vg_m vg_type vg_c_rr_f vg_c_rr_r vg_lr vg_lf vg_h vg_a_drag vg_c_drag two_wheels]. rewrite cos_0, sin_0.
    destruct (Rle_dec (1300 * 0) 0); cbn [fst snd]; lra.
Qed.
