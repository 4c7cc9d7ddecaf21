(* Generated from tools/Dyn.src by tools/gen_props.py. *)
(** Properties of the limits and of the dynamics of the models. *)
From Coq Require Import Reals Lra Psatz List Bool String QArith Qcanon.
From Verif Require Import Base Num R2 DataModel VehState PlanModel DynModel DynSpec DynProofs.
Import ListNotations.
Open Scope R_scope.
From Verif Require Import DynMain.

(** ** C51 *)

(** The acceleration that is applied is within the limits if zero is. *)
Theorem C51_within_partial : forall v a p, mparams_ok p -> mp_alo p <= 0 <= mp_ahi p -> within (apply_full_acceleration_limits v a p) (mp_alo p) (mp_ahi p).
Proof. exact C51_within_partial_pf. Qed.
Print Assumptions C51_within_partial.

(** In general it is within the limits or zero. *)
Theorem C51_within_or_zero : forall v a p, mparams_ok p -> within (apply_full_acceleration_limits v a p) (mp_alo p) (mp_ahi p) \/ apply_full_acceleration_limits v a p = 0.
Proof. exact C51_within_or_zero_pf. Qed.
Print Assumptions C51_within_or_zero.

(** Zero can be outside the limits that were asked for. *)
Theorem C51_within_refuted : exists v a p, mparams_ok p /\ within v (mp_vlo p) (mp_vhi p) /\ within a (mp_alo p) (mp_ahi p) /\ ~ within (apply_full_acceleration_limits v a p) (mp_alo p) (mp_ahi p).
Proof. exact C51_within_refuted_pf. Qed.
Print Assumptions C51_within_refuted.

(** At or above the maximal speed there is no further acceleration, at or below the
    minimal speed no further deceleration. *)
Theorem C51_speed_limits : forall v a p, (mp_vhi p <= v -> apply_full_acceleration_limits v a p <= 0) /\ (v <= mp_vlo p -> 0 <= apply_full_acceleration_limits v a p).
Proof. exact C51_speed_limits_pf. Qed.
Print Assumptions C51_speed_limits.

(** Admissible commands are not changed; inside the speed limits the applied
    acceleration is the admissible one nearest to the commanded one. *)
Theorem C51_identity : forall v a p, mparams_ok p -> mp_vlo p < v < mp_vhi p ->
  (within a (mp_alo p) (mp_ahi p) -> apply_full_acceleration_limits v a p = a) /\
  within (apply_full_acceleration_limits v a p) (mp_alo p) (mp_ahi p) /\ forall b, within b (mp_alo p) (mp_ahi p) -> Rabs (apply_full_acceleration_limits v a p - a) <= Rabs (b - a).
Proof. exact C51_identity_pf. Qed.
Print Assumptions C51_identity.

(** Braking from full speed and accelerating from the minimal speed are admissible. *)
Theorem C51_recover : forall v a p, within a (mp_alo p) (mp_ahi p) -> mparams_ok p -> (v = mp_vhi p /\ a <= 0 \/ v = mp_vlo p /\ 0 <= a) -> apply_full_acceleration_limits v a p = a.
Proof. exact C51_recover_pf. Qed.
Print Assumptions C51_recover.

Example C51_ex : mparams_ok (vp_m vp_rcar) /\ mp_vlo (vp_m vp_rcar) < 20 < mp_vhi (vp_m vp_rcar) /\ apply_full_acceleration_limits 20 3 (vp_m vp_rcar) = 3 /\ apply_full_acceleration_limits 20 30 (vp_m vp_rcar) = 5 /\ apply_full_acceleration_limits 40 30 (vp_m vp_rcar) = 0.
Proof. unfold mparams_ok, apply_full_acceleration_limits, apply_speed_constraint, apply_acceleration_limits, vp_rcar. cbn [vp_m mp_vlo mp_vhi mp_alo mp_ahi]. repeat split; cmp. Qed.

(** ** C52 *)

(** The steering rate is always within its limits, never turns a saturated wheel further
    out, and admissible rates are not changed. *)
Theorem C52_steering : forall x a p, vpar_ok p ->
  let r := steering_constraint x a (vp_dmax p) (vp_ddmax p) in
  within r (- vp_ddmax p) (vp_ddmax p) /\ (vp_dmax p <= x -> r <= 0) /\ (x <= - vp_dmax p -> 0 <= r) /\
  (within a (- vp_ddmax p) (vp_ddmax p) -> - vp_dmax p < x < vp_dmax p -> r = a) /\
  (within a (- vp_ddmax p) (vp_ddmax p) -> (x = vp_dmax p /\ a <= 0 \/ x = - vp_dmax p /\ 0 <= a) -> r = a).
Proof. exact C52_steering_pf. Qed.
Print Assumptions C52_steering.

(** Inside the angle limits the applied rate is the admissible one nearest to the
    command. *)
Theorem C52_steering_nearest : forall x a p, vpar_ok p -> - vp_dmax p < x < vp_dmax p -> forall b, within b (- vp_ddmax p) (vp_ddmax p) ->
  Rabs (steering_constraint x a (vp_dmax p) (vp_ddmax p) - a) <= Rabs (b - a).
Proof. exact C52_steering_nearest_pf. Qed.
Print Assumptions C52_steering_nearest.

Theorem C52_rotation : forall a p, ppar_ok p ->
  let r := rotation_constraint a (pp_dtheta p) in
  within r (- pp_dtheta p) (pp_dtheta p) /\ (within a (- pp_dtheta p) (pp_dtheta p) -> r = a) /\ forall b, within b (- pp_dtheta p) (pp_dtheta p) -> Rabs (r - a) <= Rabs (b - a).
Proof. exact C52_rotation_pf. Qed.
Print Assumptions C52_rotation.

(** The rates of the nozzles of rockets and spaceships, and the rotation of spacecraft. *)
Theorem C52_nozzle : forall x a lo hi dlo dhi, dlo <= 0 <= dhi -> lo <= hi ->
  let r := apply_full_ang_vel_limits x a lo hi dlo dhi in
  within r dlo dhi /\ (hi <= x -> r <= 0) /\ (x <= lo -> 0 <= r) /\ (within a dlo dhi -> lo < x < hi -> r = a).
Proof. exact C52_nozzle_pf. Qed.
Print Assumptions C52_nozzle.

Theorem C52_rotational_speed : forall o a lo hi, 
  let r := apply_rot_speed_constraint o a lo hi in (hi <= o -> r <= 0) /\ (o <= lo -> 0 <= r) /\ (lo < o < hi -> r = a) /\ (r = a \/ r = 0).
Proof. exact C52_rotational_speed_pf. Qed.
Print Assumptions C52_rotational_speed.

Theorem C52_force : forall f lo hi, lo <= hi -> within (apply_force_limits f lo hi) lo hi /\ (within f lo hi -> apply_force_limits f lo hi = f) /\
  forall b, within b lo hi -> Rabs (apply_force_limits f lo hi - f) <= Rabs (b - f).
Proof. exact C52_force_pf. Qed.
Print Assumptions C52_force.

Example C52_ex : vpar_ok vp_rcar /\ ppar_ok pp_default /\ steering_constraint 1 (1 / 4) 1 (1 / 2) = 0 /\ steering_constraint 0 2 1 (1 / 2) = 1 / 2 /\ steering_constraint 1 (- 3) 1 (1 / 2) = - (1 / 2).
Proof.
  unfold vpar_ok, ppar_ok, mparams_ok, vp_rcar, pp_default, steering_constraint. cbn [vp_m vp_dmax vp_ddmax pp_m pp_dtheta mp_vlo mp_vhi mp_alo mp_ahi]. pose proof PI_RGT_0. repeat split; cmp.
Qed.

(** ** C56 *)

(** Pedestrians, differential drives, spacecraft, rockets, spaceships and vehicles other
    than cars do not react to commands after a collision, whatever the commands of
    however many steps, for every explicit Runge-Kutta method. *)
Theorem C56_deaf_partial :
  (forall p, deaf (pedestrian_plant p)) /\ (forall wb wr lo hi, deaf (diff_drive_plant wb wr lo hi)) /\ (forall p lo hi w m Iz, deaf (spacecraft_plant p lo hi w m Iz)) /\
  (forall p Iz l, deaf (rocket_plant p Iz l)) /\ (forall p Iz l, deaf (spaceship_plant p Iz l)) /\
  (forall g p, vg_type g <> CAR -> deaf (vehicle_plant g p)) /\ (forall g p pf pr, vg_type g <> CAR -> deaf (vehicle_dyn_plant g p pf pr)).
Proof. exact C56_deaf_partial_pf. Qed.
Print Assumptions C56_deaf_partial.

(** A collided car still obeys. *)
Theorem C56_car_refuted : ~ deaf (vehicle_plant vg_car vp_rcar) /\ ~ deaf (vehicle_dyn_plant vg_car vp_rcar (P3 1 1 1) (P3 1 1 1)).
Proof. exact C56_car_refuted_pf. Qed.
Print Assumptions C56_car_refuted.

(** A collided dynamic obstacle too. *)
Theorem C56_obstacle_refuted : exists p, mparams_ok p /\ ~ deaf (obstacle_plant p (-1) 1).
Proof. exact C56_obstacle_refuted_pf. Qed.
Print Assumptions C56_obstacle_refuted.

(** Without a collision a pedestrian obeys. *)
Example C56_ex : update (pedestrian_plant pp_default) euler false (mk6 0 0 0 0 0 0) (mkPC 1 0) [1] <> update (pedestrian_plant pp_default) euler false (mk6 0 0 0 0 0 0) (mkPC 0 0) [1] /\
  same_steps [(mkPC 5 1, [1; 1]); (mkPC 0 0, [1])] [(mkPC 2 7, [1; 1]); (mkPC 1 1, [1])].
Proof.
  split; [|reflexivity]. rewrite !euler_update. intros E. apply (f_equal (fun o => match o with Some s => s_vx s | None => 0 end)) in E. revert E.
  cbn [pedestrian_plant p_ignore p_dynamics p_addX p_scaleX st6_add st6_scale s_vx pedestrian_dynamics pc_acc].
  unfold apply_full_acceleration_limits, apply_speed_constraint, apply_acceleration_limits, pp_default. cbn [pp_m mp_vlo mp_vhi mp_alo mp_ahi]. cmp; intros; lra.
Qed.

(** ** C57 *)

(** The discrete bicycle dynamics: defined for every input, and the new speed and
    steering angle are within the limits, for whatever values of sine, cosine and
    tangent. *)
Theorem C57_limits : forall T wb lr p x u dt, vparams_ok p = true ->
  exists x', bicycle_step T wb lr p x u dt = Ok x' /\ ((vp_vx_lo p <= vs_vx x')%Qc /\ (vs_vx x' <= vp_vx_hi p)%Qc) /\ (- vp_delta_max p <= vs_delta x')%Qc /\ (vs_delta x' <= vp_delta_max p)%Qc.
Proof. exact C57_limits_pf. Qed.
Print Assumptions C57_limits.

(** Position and heading advance by the rates of the old state; speed and steering
    by an admissible acceleration and steering rate, which are the commanded ones if
    these are admissible, unless a limit is reached. *)
Theorem C57_change : forall T wb lr p x u dt x', vparams_ok p = true -> bicycle_step T wb lr p x u dt = Ok x' ->
  let w := (vs_vx x * t_tan T (vs_delta x) / wb)%Qc in
  vs_x x' = (vs_x x + (vs_vx x * t_cos T (vs_psi x) - w * lr * t_sin T (vs_psi x)) * dt)%Qc /\
  vs_y x' = (vs_y x + (vs_vx x * t_sin T (vs_psi x) + w * lr * t_cos T (vs_psi x)) * dt)%Qc /\
  vs_psi x' = (vs_psi x + w * dt)%Qc /\
  exists a r, (vp_acc_lo p <= a)%Qc /\ (a <= vp_acc_hi p)%Qc /\ (- vp_ddelta_max p <= r)%Qc /\ (r <= vp_ddelta_max p)%Qc /\
    ((vp_acc_lo p <= vc_acc u)%Qc -> (vc_acc u <= vp_acc_hi p)%Qc -> a = vc_acc u) /\ ((- vp_ddelta_max p <= vc_ddelta u)%Qc -> (vc_ddelta u <= vp_ddelta_max p)%Qc -> r = vc_ddelta u) /\
    (vs_vx x' = (vs_vx x + a * dt)%Qc \/ (vs_vx x' = vp_vx_lo p /\ (vs_vx x + a * dt < vp_vx_lo p)%Qc) \/ (vs_vx x' = vp_vx_hi p /\ (vp_vx_hi p < vs_vx x + a * dt)%Qc)) /\
    (vs_delta x' = (vs_delta x + r * dt)%Qc \/ (vs_delta x' = (- vp_delta_max p)%Qc /\ (vs_delta x + r * dt < - vp_delta_max p)%Qc) \/ (vs_delta x' = vp_delta_max p /\ (vp_delta_max p < vs_delta x + r * dt)%Qc)).
Proof. exact C57_change_pf. Qed.
Print Assumptions C57_change.

Example C57_ex : vparams_ok vp_car = true /\ vparams_ok vp_truck = true /\ vparams_ok vp_bicycle = true.
Proof. repeat split; reflexivity. Qed.

(** ** C58 *)

(** The thrust that is applied is within its limits, or zero when the tank is empty. *)
Theorem C58_thrust : forall p x u, rp_Flo p <= rp_Fhi p ->
  (rp_mv p < r_m x -> within (fst (rocket_thrust p x u)) (rp_Flo p) (rp_Fhi p) /\ within (snd (rocket_thrust p x u)) (rp_Flo p) (rp_Fhi p)) /\
  (r_m x <= rp_mv p -> rocket_thrust p x u = (0, 0)).
Proof. exact C58_thrust_pf. Qed.
Print Assumptions C58_thrust.

Theorem C58_spaceship_thrust : forall p x u, rp_Flo p <= rp_Fhi p ->
  (rp_mv p < r_m x -> within (spaceship_thrust p x u) (rp_Flo p) (rp_Fhi p)) /\ (r_m x <= rp_mv p -> spaceship_thrust p x u = 0).
Proof. exact C58_spaceship_thrust_pf. Qed.
Print Assumptions C58_spaceship_thrust.

(** With non-negative force limits, under every command signal the mass of a rocket
    never increases, and never falls below the mass of the vehicle without fuel. *)
Theorem C58_rocket : forall p Iz l u x T, 0 <= rp_Flo p <= rp_Fhi p -> 0 <= rp_CT p -> motion8 (fun t => rocket_dynamics p Iz l (x t) (u t)) x T ->
  (forall s t, 0 <= s <= t -> t <= T -> r_m (x t) <= r_m (x s)) /\ (forall t, 0 <= t <= T -> Rmin (rp_mv p) (r_m (x 0)) <= r_m (x t)).
Proof. exact C58_rocket_pf. Qed.
Print Assumptions C58_rocket.

Theorem C58_spaceship_partial : forall p Iz l u x T, 0 <= rp_Flo p <= rp_Fhi p -> 0 <= rp_CT p -> motion8 (fun t => spaceship_dynamics p Iz l (x t) (u t)) x T ->
  (forall s t, 0 <= s <= t -> t <= T -> r_m (x t) <= r_m (x s)) /\ (forall t, 0 <= t <= T -> Rmin (rp_mv p) (r_m (x 0)) <= r_m (x t)).
Proof. exact C58_spaceship_partial_pf. Qed.
Print Assumptions C58_spaceship_partial.

(** The default rocket meets the hypotheses, and a motion exists: a rocket with an empty
    tank flying straight. *)
Example C58_ex : 0 <= rp_Flo rp_default <= rp_Fhi rp_default /\ 0 <= rp_CT rp_default /\
  motion8 (fun t => rocket_dynamics rp_default 1 1 (mk8 (0 + 3 * t) 0 0 3 0 0 0 1) (mkRC 2 1 0)) (fun t => mk8 (0 + 3 * t) 0 0 3 0 0 0 1) 10.
Proof.
  cbn [rp_default rp_Flo rp_Fhi rp_CT]. split; [lra|]. split; [lra|]. unfold motion8, rocket_dynamics, rocket_thrust, leb. cbn [r_m rp_mv rp_default]. destruct (Rle_dec 1 2); [|lra].
  assert (Z : apply_full_ang_vel_limits 0 0 (- (60 * PI / 180)) (60 * PI / 180) (- (20 * PI / 180)) (20 * PI / 180) = 0).
  { pose proof PI_RGT_0. unfold apply_full_ang_vel_limits, apply_ang_constraint, apply_ang_vel_limits. cmp. }
  cbn [r_x r_y r_psi r_vx r_vy r_dpsi r_ang r_m rc_dphi rp_default rp_lo rp_hi rp_dlo rp_dhi rp_CT]. rewrite Z.
  split; [apply evolves_affine|]. repeat (match goal with |- _ /\ _ => split end; [eapply evolves_ext; [apply evolves_const| reflexivity| intros; cbn; ring]|]). eapply evolves_ext; [apply evolves_const| reflexivity| intros; cbn; ring].
Qed.

(** The thrust of the default spaceship may be negative, and then it gains mass. *)
Theorem C58_spaceship_refuted : forall Iz l x, rp_mv sp_default < r_m x -> 0 < r_m (spaceship_dynamics sp_default Iz l x (mkSSC (-2) 0)).
Proof. exact C58_spaceship_refuted_pf. Qed.
Print Assumptions C58_spaceship_refuted.

(** ** C59 *)

(** The force never exceeds the peak factor, for both formulas and all parameters. *)
Theorem C59_bounded : forall t s, Rabs (pac_evaluate t s) <= Rabs (pac_D t).
Proof. exact C59_bounded_pf. Qed.
Print Assumptions C59_bounded.

(** No slip, no force. *)
Theorem C59_zero : forall t, pac_evaluate t 0 = 0.
Proof. exact C59_zero_pf. Qed.
Print Assumptions C59_zero.

(** Opposite slips give opposite forces. *)
Theorem C59_odd : forall t s, pac_evaluate t (- s) = - pac_evaluate t s.
Proof. exact C59_odd_pf. Qed.
Print Assumptions C59_odd.

(** The peak factor is reached by a three-parameter tyre whose shape factor is
    above one. *)
Theorem C59_peak : forall B C D, B <> 0 -> 1 < C -> pac_evaluate (P3 B C D) (tan (PI / 2 / C) / B) = D.
Proof. exact C59_peak_pf. Qed.
Print Assumptions C59_peak.

Example C59_ex : 1 < 19 / 10 /\ default_car_front false = P3 10 (19 / 10) (9 / 10) /\ Rabs (pac_evaluate (default_car_front false) 3) <= 9 / 10.
Proof. split; [lra|]. split; [reflexivity|]. eapply Rle_trans; [apply C59_bounded|]. cbn. rewrite Rabs_right; lra. Qed.

(** The default tyres asked from the four-parameter class are not four-parameter tyres. *)
Theorem C59_default_4p_refuted : is_4p (default_car_front true) = false /\ is_4p (default_car_rear true) = false /\ is_4p (default_truck_front true) = false /\
  is_4p (default_truck_rear true) = false /\ is_4p (default_bicycle_front true) = false /\ is_4p (default_bicycle_rear true) = false.
Proof. exact C59_default_4p_refuted_pf. Qed.
Print Assumptions C59_default_4p_refuted.

(** ** C81 *)

(** Along every motion of the kinematic vehicle, whatever the command signal, speed
    and steering angle stay within their limits. *)
Theorem C81_vehicle : forall g p u x T, vpar_ok p -> vehicle_motion g p u x T ->
  within (v_vx (x 0)) (mp_vlo (vp_m p)) (mp_vhi (vp_m p)) -> within (v_delta (x 0)) (- vp_dmax p) (vp_dmax p) ->
  forall t, 0 <= t <= T -> within (v_vx (x t)) (mp_vlo (vp_m p)) (mp_vhi (vp_m p)) /\ within (v_delta (x t)) (- vp_dmax p) (vp_dmax p).
Proof. exact C81_vehicle_pf. Qed.
Print Assumptions C81_vehicle.

(** A motion: constant speed, straight. *)
Example C81_ex : vpar_ok vp_rcar /\ vehicle_motion vg_car vp_rcar (fun _ => mkVCm 0 0) (fun t => mkV (0 + 10 * t) 0 0 10 0) 5.
Proof.
  split; [unfold vpar_ok, mparams_ok, vp_rcar; cbn [vp_m vp_dmax vp_ddmax mp_vlo mp_vhi mp_alo mp_ahi]; lra|].
  assert (A : apply_full_acceleration_limits 10 0 (vp_m vp_rcar) = 0) by (unfold apply_full_acceleration_limits, apply_speed_constraint, apply_acceleration_limits, vp_rcar; cbn [vp_m mp_vlo mp_vhi mp_alo mp_ahi]; cmp).
  assert (B : steering_constraint 0 0 (vp_dmax vp_rcar) (vp_ddmax vp_rcar) = 0) by (unfold steering_constraint, vp_rcar; cbn [vp_dmax vp_ddmax]; cmp).
  unfold vehicle_motion, vehicle_dynamics. cbn [v_x v_y v_psi v_vx v_delta c_acc c_ddelta]. rewrite A, B, tan_0, cos_0, sin_0.
  split; [eapply evolves_ext; [apply (evolves_affine 0 10)| reflexivity| intros; cbn; unfold Rdiv; ring]|].
  repeat split; eapply evolves_ext; try apply evolves_const; try reflexivity; intros; unfold Rdiv; ring.
Qed.

(** Pedestrians that have not collided; dynamic obstacles, in all three components. *)
Theorem C81_pedestrian : forall p u x T, motion6 (fun t => pedestrian_dynamics p false (x 0) (x t) (u t)) x T ->
  within (s_vx (x 0)) (mp_vlo (pp_m p)) (mp_vhi (pp_m p)) -> forall t, 0 <= t <= T -> within (s_vx (x t)) (mp_vlo (pp_m p)) (mp_vhi (pp_m p)).
Proof. exact C81_pedestrian_pf. Qed.
Print Assumptions C81_pedestrian.

Theorem C81_obstacle : forall p lo hi u x T, motion6 (fun t => obstacle_dynamics p lo hi (x t) (u t)) x T ->
  within (s_vx (x 0)) (mp_vlo p) (mp_vhi p) -> within (s_vy (x 0)) (mp_vlo p) (mp_vhi p) -> within (s_dpsi (x 0)) lo hi ->
  forall t, 0 <= t <= T -> within (s_vx (x t)) (mp_vlo p) (mp_vhi p) /\ within (s_vy (x t)) (mp_vlo p) (mp_vhi p) /\ within (s_dpsi (x t)) lo hi.
Proof. exact C81_obstacle_pf. Qed.
Print Assumptions C81_obstacle.

(** The rotational speed of spacecraft, the nozzle angles of rockets and spaceships. *)
Theorem C81_spacecraft_rotation : forall p lo hi w m Iz u x T, motion6 (fun t => spacecraft_dynamics p lo hi w m Iz (x t) (u t)) x T ->
  within (s_dpsi (x 0)) lo hi -> forall t, 0 <= t <= T -> within (s_dpsi (x t)) lo hi.
Proof. exact C81_spacecraft_rotation_pf. Qed.
Print Assumptions C81_spacecraft_rotation.

Theorem C81_rocket_nozzle : forall p Iz l u x T, motion8 (fun t => rocket_dynamics p Iz l (x t) (u t)) x T ->
  within (r_ang (x 0)) (rp_lo p) (rp_hi p) -> forall t, 0 <= t <= T -> within (r_ang (x t)) (rp_lo p) (rp_hi p).
Proof. exact C81_rocket_nozzle_pf. Qed.
Print Assumptions C81_rocket_nozzle.

Theorem C81_spaceship_nozzle : forall p Iz l u x T, motion8 (fun t => spaceship_dynamics p Iz l (x t) (u t)) x T ->
  within (r_ang (x 0)) (rp_lo p) (rp_hi p) -> forall t, 0 <= t <= T -> within (r_ang (x t)) (rp_lo p) (rp_hi p).
Proof. exact C81_spaceship_nozzle_pf. Qed.
Print Assumptions C81_spaceship_nozzle.

(** Spacecraft ignore their speed limits: at constant full thrust, from rest, every
    speed limit is exceeded sooner or later. *)
Theorem C81_spacecraft_speed_refuted : forall p lo hi w m Iz, mparams_ok p -> 0 < mp_ahi p -> mp_alo p <= mp_ahi p -> lo <= 0 <= hi ->
  exists x T, 0 <= T /\ motion6 (fun t => spacecraft_dynamics p lo hi w m Iz (x t) (mkSC (mp_ahi p) (mp_ahi p))) x T /\ s_vx (x 0) = 0 /\ mp_vhi p < s_vx (x T).
Proof. exact C81_spacecraft_speed_refuted_pf. Qed.
Print Assumptions C81_spacecraft_speed_refuted.

(** ** C82 *)

(** The velocity reported in the world frame is the rate of change of the pose. *)
Theorem C82_vehicle : forall g p x u, let d := vehicle_dynamics g p x u in
  get_velocity KVehicle (vg_wheelbase g) (vg_lr g) (vst_obj x) false = Ok ((v_x d, v_y d), v_psi d).
Proof. exact C82_vehicle_pf. Qed.
Print Assumptions C82_vehicle.

(** For the dynamic vehicle at 0.1 m/s or more. *)
Theorem C82_vehicle_dyn_partial : forall g p pf pr c self x u d w l, 1 / 10 <= d_vx x -> vehicle_dyn_dynamics g p pf pr c self x u = Some d ->
  get_velocity KVehicleDyn w l (dst_obj x) false = Ok ((d_x d, d_y d), d_psi d).
Proof. exact C82_vehicle_dyn_partial_pf. Qed.
Print Assumptions C82_vehicle_dyn_partial.

(** Below, the motion follows the steering angle and the reported lateral and rotational
    velocities are unrelated to it. *)
Theorem C82_vehicle_dyn_refuted : exists x, forall u w l d, vehicle_dyn_dynamics vg_car vp_rcar (default_car_front true) (default_car_rear true) false x x u = Some d ->
  get_velocity KVehicleDyn w l (dst_obj x) false = Ok ((0, 1), 2) /\ d_x d = 0 /\ d_y d = 0 /\ d_psi d = 0.
Proof. exact C82_vehicle_dyn_refuted_pf. Qed.
Print Assumptions C82_vehicle_dyn_refuted.

Theorem C82_spacecraft : forall p lo hi w m Iz x u a b, let d := spacecraft_dynamics p lo hi w m Iz x u in
  get_velocity KSpacecraft a b (st6_obj "SpacecraftState" x) false = Ok ((s_x d, s_y d), s_psi d).
Proof. exact C82_spacecraft_pf. Qed.
Print Assumptions C82_spacecraft.

Theorem C82_obstacle : forall p lo hi x u a b, let d := obstacle_dynamics p lo hi x u in
  get_velocity KDynObstacle a b (st6_obj "DynObstacleState" x) false = Ok ((s_x d, s_y d), s_psi d).
Proof. exact C82_obstacle_pf. Qed.
Print Assumptions C82_obstacle.

Theorem C82_spaceship : forall p Iz l x u a b, let d := spaceship_dynamics p Iz l x u in
  get_velocity KSpaceship a b (st8_obj "SpaceshipState" "delta" x) false = Ok ((r_x d, r_y d), r_psi d).
Proof. exact C82_spaceship_pf. Qed.
Print Assumptions C82_spaceship.

(** The linear velocity of a pedestrian is reported correctly, the rotation is not. *)
Theorem C82_pedestrian_partial : forall p c self x u a b, let d := pedestrian_dynamics p c self x u in
  exists om, get_velocity KPedestrian a b (st6_obj "PedestrianState" x) false = Ok ((s_x d, s_y d), om).
Proof. exact C82_pedestrian_partial_pf. Qed.
Print Assumptions C82_pedestrian_partial.

Theorem C82_pedestrian_refuted : exists x, forall c self a b, let d := pedestrian_dynamics pp_default c self x (mkPC 0 1) in
  s_psi d = 1 /\ get_velocity KPedestrian a b (st6_obj "PedestrianState" x) false = Ok ((s_x d, s_y d), 0).
Proof. exact C82_pedestrian_refuted_pf. Qed.
Print Assumptions C82_pedestrian_refuted.

(** A rocket whose velocity is given in the world frame by the dynamics, but is
    reported as if it were given in the frame of the rocket. *)
Theorem C82_rocket_partial : forall p Iz l x u a b, let d := rocket_dynamics p Iz l x u in
  get_velocity KRocket a b (st8_obj "RocketState" "phi" x) true = Ok ((r_x d, r_y d), r_psi d).
Proof. exact C82_rocket_partial_pf. Qed.
Print Assumptions C82_rocket_partial.

Theorem C82_rocket_refuted : exists x, forall p Iz l u a b, let d := rocket_dynamics p Iz l x u in
  r_x d = 1 /\ r_y d = 0 /\ get_velocity KRocket a b (st8_obj "RocketState" "phi" x) false = Ok ((0, 1), r_psi d).
Proof. exact C82_rocket_refuted_pf. Qed.
Print Assumptions C82_rocket_refuted.

(** A differential drive robot rolls: the point of each wheel on the axle moves along the
    heading with the speed of the rim of the wheel, and not sideways. *)
Theorem C82_diff_drive_rolls : forall wb wr lo hi x u, wb <> 0 -> lo <= wc_l u <= hi -> lo <= wc_r u <= hi -> let d := diff_drive_dynamics wb wr lo hi x u in
  let speed_at y := (w_x d - w_psi d * y * cos (w_psi x), w_y d - w_psi d * y * sin (w_psi x)) in
  speed_at (wb / 2) = vscale (wc_l u * wr) (cos (w_psi x), sin (w_psi x)) /\ speed_at (- (wb / 2)) = vscale (wc_r u * wr) (cos (w_psi x), sin (w_psi x)).
Proof. exact C82_diff_drive_rolls_pf. Qed.
Print Assumptions C82_diff_drive_rolls.

(** A differential drive moves but reports that it stands still. *)
Theorem C82_diff_drive_refuted : exists x u, forall a b, let d := diff_drive_dynamics 1 (2 / 10) (-5) 5 x u in
  w_x d = 1 /\ get_velocity KDiffDrive a b (st3_obj x) false = Ok ((0, 0), 0).
Proof. exact C82_diff_drive_refuted_pf. Qed.
Print Assumptions C82_diff_drive_refuted.

(** ** C83 *)

(** The normal forces of the default vehicles push the tyres onto the road, whatever
    the command; in general they do as long as the load transfer is smaller than the
    weight on the axle. *)
Theorem C83_normal_forces : forall g acc, 0 < vg_m g -> 0 < vg_wheelbase g -> - (G * vg_lf g) < vg_h g * acc < G * vg_lr g ->
  fst (normal_forces g acc) < 0 /\ snd (normal_forces g acc) < 0 /\ fst (normal_forces g acc) + snd (normal_forces g acc) = - (vg_m g * G).
Proof. exact C83_normal_forces_pf. Qed.
Print Assumptions C83_normal_forces.

(** At every tyre the longitudinal force is the demanded one times a factor between 0 and
    1, and the two are related by the friction circle: factor^2 + (lateral force /
    (normal force * D))^2 = 1; the square root is never taken of a negative number. *)
Theorem C83_friction_circle : forall g p pf pr x u F1x F1y F2x F2y, wheel_forces g p pf pr x u = Some ((F1x, F1y), (F2x, F2y)) ->
  let acc := apply_full_acceleration_limits (d_vx x) (c_acc u) (vp_m p) in
  let (N1, N2) := normal_forces g acc in
  exists k1 k2, 0 <= k1 <= 1 /\ 0 <= k2 <= 1 /\
  F1x = k1 * (fst (acceleration_split (vg_type g) (vg_m g * acc)) + vg_c_rr_f g * N1) /\ F2x = k2 * (snd (acceleration_split (vg_type g) (vg_m g * acc)) + vg_c_rr_r g * N2) /\
  k1 * k1 + (F1y / (N1 * pac_D pf)) * (F1y / (N1 * pac_D pf)) = 1 /\ k2 * k2 + (F2y / (N2 * pac_D pr)) * (F2y / (N2 * pac_D pr)) = 1.
Proof. exact C83_friction_circle_pf. Qed.
Print Assumptions C83_friction_circle.

(** The dynamics of the default vehicles are defined in every state whose front wheel
    does not stand still, and for every command. *)
Theorem C83_defined : forall g p pf pr c self x u, default_vehicle g p -> pac_D pf <> 0 -> pac_D pr <> 0 ->
  rot (- d_delta x) (d_vx x, d_vy x + vg_lf g * d_dpsi x) <> (0, 0) -> exists d, vehicle_dyn_dynamics g p pf pr c self x u = Some d.
Proof. exact C83_defined_pf. Qed.
Print Assumptions C83_defined.

(** Braking brakes and accelerating accelerates: the demanded force is split between
    front and rear without loss. *)
Theorem C83_split : forall t F, let (a, b) := acceleration_split t F in a + b = F /\ (F <= 0 -> b <= 0 /\ a <= b) /\ (0 <= F -> 0 <= a /\ a = b).
Proof. exact C83_split_pf. Qed.
Print Assumptions C83_split.

Example C83_ex : default_vehicle vg_car vp_rcar /\ pac_D (default_car_front true) <> 0 /\ rot (- 0) (10, 0 + vg_lf vg_car * 0) <> (0, 0).
Proof.
  split; [left; split; reflexivity|]. split; [cbn; lra|]. unfold rot. cbn [fst snd]. intros K. injection K as K _. rewrite Ropp_0, cos_0, sin_0 in K. lra.
Qed.

(** The dynamic vehicle is accelerated beyond its maximal speed by its rotation: at the
    maximal speed, without any command, its speed increases. *)
Theorem C81_vehicle_dyn_refuted : exists x d, d_vx x = mp_vhi (vp_m vp_rcar) /\
  vehicle_dyn_dynamics vg_car vp_rcar (default_car_front true) (default_car_rear true) false x x (mkVCm 0 0) = Some d /\ 0 < d_vx d.
Proof. exact C81_vehicle_dyn_refuted_pf. Qed.
Print Assumptions C81_vehicle_dyn_refuted.
