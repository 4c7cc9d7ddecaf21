(* Generated from tools/Newton.src by tools/gen_props.py. *)
(** Properties of the forces, torques and masses of the models. *)
From Coq Require Import Reals Lra Psatz List Bool String.
From Verif Require Import Base R2 DataModel DynModel DynSpec DynProofs NewtonSpec NewtonProofs.
Import ListNotations.
Open Scope R_scope.
From Verif Require Import NewtonMain.

(** ** C128 *)

(** In the frame of the world the spacecraft obeys Newton's second law with two thrusters
    that push along the heading, and Euler's law with the thrusters mounted at the half
    width to the left and to the right, as long as the limit of the turning rate is not
    reached. *)
Theorem C128_spacecraft : forall p lo hi w m Iz u x T, mp_alo p <= mp_ahi p -> 0 < m ->
  motion6 (fun t => spacecraft_dynamics p lo hi w m Iz (x t) (u t)) x T ->
  let Fl t := m * clip (mp_alo p) (mp_ahi p) (sc_l (u t)) in
  let Fr t := m * clip (mp_alo p) (mp_ahi p) (sc_r (u t)) in
  newton (fun t => pos6 (x t)) (fun t => vel6 (x t)) (fun _ => m) (fun t => vadd (vscale (Fl t) (dir (s_psi (x t)))) (vscale (Fr t) (dir (s_psi (x t))))) T /\
  evolves (fun t => s_psi (x t)) (fun t => s_dpsi (x t)) T /\
  forall t, 0 <= t < T -> lo < s_dpsi (x t) < hi -> right_deriv (fun t => s_dpsi (x t)) t ((torque (0, w) (Fl t, 0) + torque (0, - w) (Fr t, 0)) / Iz).
Proof. exact C128_spacecraft_pf. Qed.
Print Assumptions C128_spacecraft.

(** Without thrust it flies straight with constant velocity, however it turns. *)
Theorem C128_spacecraft_coasts : forall p lo hi w m Iz u x T, mp_alo p <= 0 <= mp_ahi p -> 0 < m ->
  motion6 (fun t => spacecraft_dynamics p lo hi w m Iz (x t) (u t)) x T -> (forall t, 0 <= t < T -> u t = mkSC 0 0) ->
  forall t, 0 <= t <= T -> vel6 (x t) = vel6 (x 0) /\ pos6 (x t) = vadd (pos6 (x 0)) (vscale t (vel6 (x 0))) /\ s_dpsi (x t) = s_dpsi (x 0) /\ s_psi (x t) = s_psi (x 0) + s_dpsi (x 0) * t.
Proof. exact C128_spacecraft_coasts_pf. Qed.
Print Assumptions C128_spacecraft_coasts.

(** The spaceship: one thrust, turned by the angle of the nozzle, that attacks behind the
    centre, and a mass that decreases with the thrust. *)
Theorem C128_spaceship : forall p Iz l u x T, rp_Flo p <= rp_Fhi p -> Iz <> 0 ->
  motion8 (fun t => spaceship_dynamics p Iz l (x t) (u t)) x T ->
  let F t := thrust_of p (r_m (x t)) (ss_thrust (u t)) in
  newton (fun t => pos8 (x t)) (fun t => vel8 (x t)) (fun t => r_m (x t)) (fun t => vscale (F t) (dir (r_psi (x t) + r_ang (x t)))) T /\
  evolves (fun t => r_psi (x t)) (fun t => r_dpsi (x t)) T /\
  evolves (fun t => r_dpsi (x t)) (fun t => torque (- l, 0) (vscale (F t) (dir (r_ang (x t)))) / Iz) T /\
  evolves (fun t => r_m (x t)) (fun t => - rp_CT p * F t) T.
Proof. exact C128_spaceship_pf. Qed.
Print Assumptions C128_spaceship.

(** The rocket: two thrusts at the distance l in front of the centre, turned by the angle
    of the nozzles from the directions across the heading; its velocities are those of
    the frame of the world. *)
Theorem C128_rocket : forall p Iz l u x T, rp_Flo p <= rp_Fhi p -> Iz <> 0 ->
  motion8 (fun t => rocket_dynamics p Iz l (x t) (u t)) x T ->
  let Fl t := thrust_of p (r_m (x t)) (rc_l (u t)) in
  let Fr t := thrust_of p (r_m (x t)) (rc_r (u t)) in
  newton (fun t => pos8 (x t)) (fun t => world8 (x t)) (fun t => r_m (x t))
    (fun t => vadd (vscale (Fl t) (dir (r_psi (x t) + r_ang (x t) - PI / 2))) (vscale (Fr t) (dir (r_psi (x t) - r_ang (x t) + PI / 2)))) T /\
  evolves (fun t => r_psi (x t)) (fun t => r_dpsi (x t)) T /\
  evolves (fun t => r_dpsi (x t)) (fun t => (torque (l, 0) (vscale (Fl t) (dir (r_ang (x t) - PI / 2))) + torque (l, 0) (vscale (Fr t) (dir (- r_ang (x t) + PI / 2)))) / Iz) T /\
  evolves (fun t => r_m (x t)) (fun t => - rp_CT p * (Fl t + Fr t)) T.
Proof. exact C128_rocket_pf. Qed.
Print Assumptions C128_rocket.

(** The budget of a rocket: whatever it is commanded, its velocity between two moments
    changes at most by the logarithm of the ratio of the masses over the consumption
    constant, and altogether at most by that of the full and the empty mass. *)
Theorem C128_rocket_budget : forall p Iz l u x T, 0 <= rp_Flo p <= rp_Fhi p -> 0 < rp_CT p -> 0 < rp_mv p -> Iz <> 0 -> rp_mv p <= r_m (x 0) ->
  motion8 (fun t => rocket_dynamics p Iz l (x t) (u t)) x T ->
  forall s t, 0 <= s <= t -> t <= T ->
  vdist (world8 (x t)) (world8 (x s)) <= ln (r_m (x s) / r_m (x t)) / rp_CT p /\ vdist (world8 (x t)) (world8 (x s)) <= ln (r_m (x 0) / rp_mv p) / rp_CT p.
Proof. exact C128_rocket_budget_pf. Qed.
Print Assumptions C128_rocket_budget.

(** The same for spaceships that cannot push backwards. *)
Theorem C128_spaceship_budget_forward : forall p Iz l u x T, 0 <= rp_Flo p <= rp_Fhi p -> 0 < rp_CT p -> 0 < rp_mv p -> Iz <> 0 -> rp_mv p <= r_m (x 0) ->
  motion8 (fun t => spaceship_dynamics p Iz l (x t) (u t)) x T ->
  forall s t, 0 <= s <= t -> t <= T ->
  vdist (vel8 (x t)) (vel8 (x s)) <= ln (r_m (x s) / r_m (x t)) / rp_CT p /\ vdist (vel8 (x t)) (vel8 (x s)) <= ln (r_m (x 0) / rp_mv p) / rp_CT p.
Proof. exact C128_spaceship_budget_forward_pf. Qed.
Print Assumptions C128_spaceship_budget_forward.

(** The default spaceship can: in reverse it gains mass, and any velocity can be
    reached. *)
Theorem C128_spaceship_budget_refuted : forall B, exists x T, 0 <= T /\ motion8 (fun t => spaceship_dynamics sp_default 1 1 (x t) (mkSSC (-2) 0)) x T /\ r_m (x 0) = 3 /\ r_ang (x T) = 0 /\
  B < vdist (vel8 (x T)) (vel8 (x 0)).
Proof. exact C128_spaceship_budget_refuted_pf. Qed.
Print Assumptions C128_spaceship_budget_refuted.

(** The moving obstacle obeys Newton's law with its commands as forces along and across
    the heading while no limit is reached... *)
Theorem C128_obstacle_within_limits : forall p lo hi u x T m, 0 < m -> motion6 (fun t => obstacle_dynamics p lo hi (x t) (u t)) x T ->
  (forall t, 0 <= t < T -> mp_vlo p < s_vx (x t) < mp_vhi p /\ mp_vlo p < s_vy (x t) < mp_vhi p /\
    within (oc_x (u t) + s_dpsi (x t) * s_vy (x t)) (mp_alo p) (mp_ahi p) /\ within (oc_y (u t) - s_dpsi (x t) * s_vx (x t)) (mp_alo p) (mp_ahi p)) ->
  newton (fun t => pos6 (x t)) (fun t => vel6 (x t)) (fun _ => m) (fun t => from_body (s_psi (x t)) (m * oc_x (u t), m * oc_y (u t))) T.
Proof. exact C128_obstacle_within_limits_pf. Qed.
Print Assumptions C128_obstacle_within_limits.

(** ... but the limits are applied to the apparent forces of the turning frame as well:
    an obstacle that turns becomes faster without any command. *)
Theorem C128_obstacle_refuted : exists p lo hi x, mparams_ok p /\ mp_alo p <= 0 <= mp_ahi p /\ motion6 (fun t => obstacle_dynamics p lo hi (x t) (mkOC 0 0 0)) x 1 /\
  (forall t, 0 <= t <= 1 -> mp_vlo p < s_vx (x t) < mp_vhi p /\ mp_vlo p < s_vy (x t) < mp_vhi p /\ lo < s_dpsi (x t) < hi) /\ vnorm (vel6 (x 0)) < vnorm (vel6 (x 1)).
Proof. exact C128_obstacle_refuted_pf. Qed.
Print Assumptions C128_obstacle_refuted.

(** The dynamic vehicle: in the frame of the world, above the speed at which the
    kinematic model is used, the mass times the acceleration is the sum of the force at
    the front tyre, turned by the steering angle, the force at the rear tyre and the
    drag; the torque is that of the two tyre forces at the axles.  After a collision a
    friction proportional to the velocity at the beginning of the update is added. *)
Theorem C128_vehicle : forall g p pf pr collided self u x dx T, vg_m g <> 0 -> vg_Iz g <> 0 -> dyn_motion g p pf pr collided self u x dx T -> (forall t, 0 <= t < T -> 1 / 10 <= d_vx (x t)) ->
  exists F1 F2 : R -> vec, (forall t, 0 <= t < T -> wheel_forces g p pf pr (x t) (u t) = Some (F1 t, F2 t)) /\
  let mu := if collided then if two_wheels (vg_type g) then 3 else 1 else 0 in
  let drag t : vec := (- (1 / 2) * rho ^ 2 * vg_c_drag g * vg_a_drag g * d_vx (x t), 0) in
  changes (fun t => posd (x t)) (fun t => veld (x t)) T /\
  changes (fun t => veld (x t)) (fun t => vadd (vscale (/ vg_m g) (from_body (d_psi (x t)) (vadd (from_body (d_delta (x t)) (F1 t)) (vadd (F2 t) (drag t))))) (from_body (d_psi (x t)) (vscale (- mu) (d_vx self, d_vy self)))) T /\
  evolves (fun t => d_psi (x t)) (fun t => d_dpsi (x t)) T /\
  evolves (fun t => d_dpsi (x t)) (fun t => (torque (vg_lf g, 0) (from_body (d_delta (x t)) (F1 t)) + torque (- vg_lr g, 0) (F2 t)) / vg_Iz g - mu * d_dpsi self) T.
Proof. exact C128_vehicle_pf. Qed.
Print Assumptions C128_vehicle.

(** The drag is proportional to the speed and to the square of the density... *)
Theorem C128_drag : forall g p pf pr x u F, vg_m g <> 0 -> 1 / 10 <= d_vx x -> wheel_forces g p pf pr x u = Some F -> drag_is g p pf pr x u (- (1 / 2) * rho ^ 2 * vg_c_drag g * vg_a_drag g * d_vx x).
Proof. exact C128_drag_pf. Qed.
Print Assumptions C128_drag.

(** ... so that it is not the resistance of the air, which grows with the square of the
    speed: at twice the speed the default car has twice the drag. *)
Theorem C128_drag_refuted : exists g p pf pr x1 u1 x2 u2 F1 F2, d_vx x2 = 2 * d_vx x1 /\ drag_is g p pf pr x1 u1 F1 /\ drag_is g p pf pr x2 u2 F2 /\ F1 < 0 /\ F2 = 2 * F1.
Proof. exact C128_drag_refuted_pf. Qed.
Print Assumptions C128_drag_refuted.

(** After a collision the commands have no part in it, but the model brakes: friction
    proportional to the velocities it had when the update began. *)
Theorem C128_vehicle_friction : forall g p pf pr self x u b, vehicle_dyn_dynamics g p pf pr false self x u = Some b ->
  let mu := if two_wheels (vg_type g) then 3 else 1 in
  vehicle_dyn_dynamics g p pf pr true self x u = Some (mkD (d_x b) (d_y b) (d_psi b) (d_vx b - mu * d_vx self) (d_vy b - mu * d_vy self) (d_dpsi b - mu * d_dpsi self) (d_delta b)).
Proof. exact C128_vehicle_friction_pf. Qed.
Print Assumptions C128_vehicle_friction.

Theorem C128_pedestrian_friction : forall p self x u, let b := pedestrian_dynamics p false self x u in
  pedestrian_dynamics p true self x u = mk6 (s_x b) (s_y b) (s_psi b) (s_vx b - 2 * s_vx self) (s_vy b - 2 * s_vy self) (s_dpsi b - 2 * s_dpsi self).
Proof. exact C128_pedestrian_friction_pf. Qed.
Print Assumptions C128_pedestrian_friction.

(** A spacecraft that coasts and turns. *)
Example C128_ex_spacecraft : motion6 (fun t => spacecraft_dynamics (mkMP (-10) 10 (-10) 10) (-6) 6 1 2 1 (mk6 (0 + 3 * t) 0 (0 + 1 * t) (3 * cos (0 + 1 * t)) (- (3 * sin (0 + 1 * t))) 1) (mkSC 0 0))
  (fun t => mk6 (0 + 3 * t) 0 (0 + 1 * t) (3 * cos (0 + 1 * t)) (- (3 * sin (0 + 1 * t))) 1) 10.
Proof.
  assert (C0 : apply_acceleration_limits 0 (mkMP (-10) 10 (-10) 10) = 0) by (unfold apply_acceleration_limits; cbn [mp_alo mp_ahi]; cmp).
  unfold motion6, spacecraft_dynamics. cbn [s_x s_y s_psi s_vx s_vy s_dpsi sc_l sc_r]. rewrite !C0. repeat match goal with |- _ /\ _ => split end.
  - apply (evolves_ext _ _ _ _ 10 (evolves_affine 0 3 10)); intros t; [reflexivity|]. intros _. pose proof (sin2_cos2 (0 + 1 * t)) as S. unfold Rsqr in S. transitivity (3 * (sin (0 + 1 * t) * sin (0 + 1 * t) + cos (0 + 1 * t) * cos (0 + 1 * t))); [rewrite S; ring| ring].
  - apply (evolves_ext _ _ _ _ 10 (evolves_const 0 10)); intros t; [reflexivity|]. intros _. ring.
  - apply (evolves_ext _ _ _ _ 10 (evolves_affine 0 1 10)); intros t; reflexivity.
  - apply (evolves_ext _ _ _ _ 10 (ev_scale 3 _ _ 10 (ev_cos _ _ 10 (evolves_affine 0 1 10)))); intros t; [reflexivity|]. intros _. cbv beta. ring.
  - apply (evolves_ext _ _ _ _ 10 (ev_opp _ _ 10 (ev_scale 3 _ _ 10 (ev_sin _ _ 10 (evolves_affine 0 1 10))))); intros t; [reflexivity|]. intros _. cbv beta. ring.
  - apply (evolves_ext _ _ _ _ 10 (evolves_const 1 10)); intros t; [reflexivity|]. intros _. rewrite Rminus_diag_eq by reflexivity. rewrite Rmult_0_r. unfold apply_rot_speed_constraint. destruct (_ || _); reflexivity.
Qed.

(** A default rocket that burns half a kilogram with its two nozzles against each other. *)
Example C128_ex_rocket : motion8 (fun t => rocket_dynamics rp_default 1 1 (mk8 (0 + 3 * t) 0 0 3 0 0 0 (3 + - (4 / 100) * t)) (mkRC 2 5 0)) (fun t => mk8 (0 + 3 * t) 0 0 3 0 0 0 (3 + - (4 / 100) * t)) 12.
Proof.
  assert (Z : apply_full_ang_vel_limits 0 0 (rp_lo rp_default) (rp_hi rp_default) (rp_dlo rp_default) (rp_dhi rp_default) = 0).
  { pose proof PI_RGT_0. unfold apply_full_ang_vel_limits, apply_ang_constraint, apply_ang_vel_limits, rp_default. cbn [rp_lo rp_hi rp_dlo rp_dhi]. cmp. }
  assert (E : forall t, 0 <= t < 12 -> rocket_thrust rp_default (mk8 (0 + 3 * t) 0 0 3 0 0 0 (3 + - (4 / 100) * t)) (mkRC 2 5 0) = (2, 2)).
  { intros t Ht. unfold rocket_thrust. cbn [r_m rp_default rp_mv rc_l rc_r rp_Flo rp_Fhi]. rewrite (proj2 (leb_false _ _)) by lra. rewrite !clip_force by lra. unfold clip. rewrite (Rmin_right 5 2), (Rmin_left 2 2), !Rmax_right by lra. reflexivity. }
  unfold motion8, rocket_dynamics. cbn [r_x r_y r_psi r_vx r_vy r_dpsi r_ang r_m rc_dphi]. repeat match goal with |- _ /\ _ => split end;
    [apply (evolves_ext _ _ _ _ 12 (evolves_affine 0 3 12))| apply (evolves_ext _ _ _ _ 12 (evolves_const 0 12))| apply (evolves_ext _ _ _ _ 12 (evolves_const 0 12))| apply (evolves_ext _ _ _ _ 12 (evolves_const 3 12))
    | apply (evolves_ext _ _ _ _ 12 (evolves_const 0 12))| apply (evolves_ext _ _ _ _ 12 (evolves_const 0 12))| apply (evolves_ext _ _ _ _ 12 (evolves_const 0 12))| apply (evolves_ext _ _ _ _ 12 (evolves_affine 3 (- (4 / 100)) 12))];
    intros t; try reflexivity; intros Ht; rewrite (E t Ht); cbn [r_x r_y r_psi r_vx r_vy r_dpsi r_ang r_m rp_default rp_CT]; try reflexivity.
  - replace (0 + 0) with 0 by ring. replace (0 - 0) with 0 by ring. rewrite sin_0. ring.
  - replace (0 + 0) with 0 by ring. replace (0 - 0) with 0 by ring. rewrite cos_0. ring.
  - ring.
  - symmetry. exact Z.
  - lra.
Qed.

(** The default car at a constant speed. *)
Example C128_ex_vehicle : dyn_motion vg_car vp_rcar (default_car_front false) (default_car_rear false) false (mkD 0 0 0 10 0 0 0) (fun _ => mkVCm (keep 10) 0) (fun t => mkD (0 + 10 * t) 0 0 10 0 0 0) (fun _ => mkD 10 0 0 0 0 0 0) 5.
Proof.
  split.
  - intros t _. unfold vehicle_dyn_dynamics. cbn [d_vx]. rewrite (proj2 (ltb_false 10 (1 / 10))) by lra. rewrite car_forces by lra. unfold vehicle_friction. cbn [d_x d_y d_psi d_vx d_vy d_dpsi d_delta c_ddelta].
    assert (S0 : steering_constraint 0 0 (vp_dmax vp_rcar) (vp_ddmax vp_rcar) = 0) by (unfold steering_constraint, vp_rcar; cbn [vp_dmax vp_ddmax]; cmp).
    rewrite S0, cos_0, sin_0. unfold rot. cbn [fst snd]. rewrite cos_0, sin_0. f_equal. unfold normal_forces, vg_wheelbase, vg_car, keep, G, rho. cbn [fst snd vg_m vg_h vg_lr vg_lf vg_Iz vg_a_drag vg_c_drag]. f_equal; field.
  - cbn [d_x d_y d_psi d_vx d_vy d_dpsi d_delta]. split; [apply evolves_affine|]. repeat match goal with |- _ /\ _ => split end; apply evolves_const.
Qed.
