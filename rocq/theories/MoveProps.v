(* Generated from tools/Move.src by tools/gen_props.py. *)
(** Properties of moved trajectories and of motion in different places. *)
From Coq Require Import Reals Lra Psatz QArith Qreals Qcanon List Bool Arith Lia.
From Verif Require Import Base Num R2 SeqModel SeqSpec SeqProps GeoModel GeoSpec GeoProofs DataModel DynModel DynSpec DynProofs MoveModel MoveSpec MoveProofs.
Import ListNotations.
Open Scope R_scope.
From Verif Require Import MoveMain.

(** ** C103 *)

(** Moving a trajectory keeps its times, moves every sample with the plane, and nothing
    else about the samples changes; the poses along the result are those of the original
    multiplied by the transform, so that the pose of one sample seen from another is the
    same as before. *)
Theorem C103_moved : forall s t, obtainable s ->
  exists s', apply_SE2transform (mkSamples cTrajectory s) t = Ok (mkSamples cSampledSequence s') /\ obtainable s' /\ tss s' = tss s /\ Forall2 (sample_moved t) (vals s) (vals s') /\
    (forall i x y x' y', nth_error (vals s) i = Some x -> nth_error (vals s') i = Some x' -> pose_of_vst x' = mmul (as_SE2 t) (pose_of_vst x) /\
      forall j, nth_error (vals s) j = Some y -> nth_error (vals s') j = Some y' ->
        relative_pose (pose_of_vst x') (pose_of_vst y') = relative_pose (pose_of_vst x) (pose_of_vst y) /\
        vnorm (v_x x' - v_x y', v_y x' - v_y y') = vnorm (v_x x - v_x y, v_y x - v_y y)).
Proof. exact C103_moved_pf. Qed.
Print Assumptions C103_moved.

(** The path of a trajectory lists the poses of its samples. *)
Theorem C103_path : forall s, as_path (mkSamples cTrajectory s) = Ok (map (fun x => mkSE2T (v_x x, v_y x) (v_psi x)) (vals s)).
Proof. exact C103_path_pf. Qed.
Print Assumptions C103_path.

(** Moving twice is moving once by the product of the transforms, and moving back by the
    inverse gives the same positions, headings (up to whole turns) and other values. *)
Theorem C103_moved_twice : forall s t1 t2 s1 s2, obtainable s ->
  apply_SE2transform (mkSamples cTrajectory s) t1 = Ok (mkSamples cSampledSequence s1) ->
  apply_SE2transform (mkSamples cTrajectory s1) t2 = Ok (mkSamples cSampledSequence s2) ->
  apply_SE2transform (mkSamples cTrajectory s) (from_SE2 (mmul (as_SE2 t2) (as_SE2 t1))) = Ok (mkSamples cSampledSequence s2) /\
  (mmul (as_SE2 t2) (as_SE2 t1) = mid -> tss s2 = tss s /\
     Forall2 (fun x y => v_x y = v_x x /\ v_y y = v_y x /\ same_angle (v_psi y) (v_psi x) /\ v_vx y = v_vx x /\ v_delta y = v_delta x) (vals s) (vals s2)).
Proof. exact C103_moved_twice_pf. Qed.
Print Assumptions C103_moved_twice.

(** The state between two samples of the moved trajectory: position, speed and steering
    angle are those of the original between the samples, moved. *)
Theorem C103_between : forall s t s' tt x, obtainable s -> apply_SE2transform (mkSamples cTrajectory s) t = Ok (mkSamples cSampledSequence s') -> state_at s tt = Ok x ->
  exists x', state_at s' tt = Ok x' /\ (v_x x', v_y x') = placed (t_p t) (t_theta t) (v_x x, v_y x) /\ v_vx x' = v_vx x /\ v_delta x' = v_delta x.
Proof. exact C103_between_pf. Qed.
Print Assumptions C103_between.

(** Refuted: headings between two samples do not move with the trajectory, because the
    moved headings are wrapped before they are averaged.  A trajectory that turns from
    -45 to 45 degrees and passes 0 halfway faces the opposite direction halfway once it
    is turned by half a turn: its heading should be 180 degrees and is 0. *)
Theorem C103_heading_between_refuted : exists s t s' tt x x', obtainable s /\
  apply_SE2transform (mkSamples cTrajectory s) t = Ok (mkSamples cSampledSequence s') /\ state_at s tt = Ok x /\ state_at s' tt = Ok x' /\
  v_psi x = 0 /\ t_theta t = PI /\ v_psi x' = 0 /\ ~ same_angle (v_psi x') (v_psi x + t_theta t).
Proof. exact C103_heading_between_refuted_pf. Qed.
Print Assumptions C103_heading_between_refuted.

(** Refuted: the result of moving a trajectory is not a trajectory, its path cannot be
    taken and it cannot be moved again. *)
Theorem C103_result_class_refuted : forall s t o, apply_SE2transform (mkSamples cTrajectory s) t = Ok o ->
  as_path o = Err PyAttributeError /\ forall t', apply_SE2transform o t' = Err PyAttributeError.
Proof. exact C103_result_class_refuted_pf. Qed.
Print Assumptions C103_result_class_refuted.

Example C103_ex : obtainable wrap_seq /\ exists s', apply_SE2transform (mkSamples cTrajectory wrap_seq) (mkSE2T (3, 4) (PI / 2)) = Ok (mkSamples cSampledSequence s') /\
  map v_x (vals s') = [3; 3] /\ map v_y (vals s') = [4; 5].
Proof.
  split; [exact ob_wrap|]. set (t := mkSE2T (3, 4) (PI / 2)). exists (mkSeq [qz 0; qz 2] [apply_SE2_state t (mkV 0 0 (-(PI / 4)) 1 0); apply_SE2_state t (mkV 1 0 (PI / 4) 1 0)] true). split; [reflexivity|]. cbn [vals map]. subst t. rewrite !moved_eq. cbn [v_x v_y t_p t_theta placed fst snd]. unfold placed. cbn [t_p t_theta fst snd v_x v_y]. rewrite cos_PI2, sin_PI2. split; repeat (f_equal; try ring).
Qed.

(** ** C104 *)

(** The whole history of updates commutes with moving the plane: for every integration
    method and every sequence of commands and steps, before and after collisions,
    starting in the moved state ends in the moved end state; nothing fails in one
    place and works in another. *)
Theorem C104_vehicle : forall g p tab c st l q a, updates (vehicle_plant g p) tab c (vst_at q a st) l = option_map (vst_at q a) (updates (vehicle_plant g p) tab c st l).
Proof. exact C104_vehicle_pf. Qed.
Print Assumptions C104_vehicle.

Theorem C104_vehicle_dyn : forall g p pf pr tab c st l q a, updates (vehicle_dyn_plant g p pf pr) tab c (dst_at q a st) l = option_map (dst_at q a) (updates (vehicle_dyn_plant g p pf pr) tab c st l).
Proof. exact C104_vehicle_dyn_pf. Qed.
Print Assumptions C104_vehicle_dyn.

Theorem C104_pedestrian : forall p tab c st l q a, updates (pedestrian_plant p) tab c (st6_at q a st) l = option_map (st6_at q a) (updates (pedestrian_plant p) tab c st l).
Proof. exact C104_pedestrian_pf. Qed.
Print Assumptions C104_pedestrian.

Theorem C104_diff_drive : forall wb wr lo hi tab c st l q a, updates (diff_drive_plant wb wr lo hi) tab c (st3_at q a st) l = option_map (st3_at q a) (updates (diff_drive_plant wb wr lo hi) tab c st l).
Proof. exact C104_diff_drive_pf. Qed.
Print Assumptions C104_diff_drive.

Theorem C104_spacecraft : forall p lo hi w m Iz tab c st l q a, updates (spacecraft_plant p lo hi w m Iz) tab c (st6_at q a st) l = option_map (st6_at q a) (updates (spacecraft_plant p lo hi w m Iz) tab c st l).
Proof. exact C104_spacecraft_pf. Qed.
Print Assumptions C104_spacecraft.

Theorem C104_obstacle : forall p lo hi tab c st l q a, updates (obstacle_plant p lo hi) tab c (st6_at q a st) l = option_map (st6_at q a) (updates (obstacle_plant p lo hi) tab c st l).
Proof. exact C104_obstacle_pf. Qed.
Print Assumptions C104_obstacle.

(** The velocity of rockets is that in the fixed frame and turns with the plane. *)
Theorem C104_rocket : forall p Iz l_m tab c st l q a, updates (rocket_plant p Iz l_m) tab c (rocket_at q a st) l = option_map (rocket_at q a) (updates (rocket_plant p Iz l_m) tab c st l).
Proof. exact C104_rocket_pf. Qed.
Print Assumptions C104_rocket.

Theorem C104_spaceship : forall p Iz l_r tab c st l q a, updates (spaceship_plant p Iz l_r) tab c (st8_at q a st) l = option_map (st8_at q a) (updates (spaceship_plant p Iz l_r) tab c st l).
Proof. exact C104_spaceship_pf. Qed.
Print Assumptions C104_spaceship.

(** The predictions of the planner commute with moving the plane too. *)
Theorem C104_planner : forall g p tab x u hs dt q a,
  successor g p (vst_at q a x) u dt = vst_at q a (successor g p x u dt) /\
  forall y, successor_ivp g tab (vst_at q a x) u hs = Ok (vst_at q a y) <-> successor_ivp g tab x u hs = Ok y.
Proof. exact C104_planner_pf. Qed.
Print Assumptions C104_planner.

(** Moved starting states: whole turns of the heading do not matter. *)
Theorem C104_moved_start : forall g p tab c t x x' l y, sample_moved t x x' -> updates (vehicle_plant g p) tab c x l = Some y ->
  exists y', updates (vehicle_plant g p) tab c x' l = Some y' /\ (v_x y', v_y y') = placed (t_p t) (t_theta t) (v_x y, v_y y) /\ same_angle (v_psi y') (v_psi y + t_theta t) /\ v_vx y' = v_vx y /\ v_delta y' = v_delta y.
Proof. exact C104_moved_start_pf. Qed.
Print Assumptions C104_moved_start.

Example C104_ex : updates (vehicle_plant vg_car vp_rcar) ([[]], [1]) false (vst_at (3, 4) (PI / 2) (mkV 0 0 0 1 0)) [(mkVCm 1 0, [1])] = Some (mkV 3 5 (PI / 2) 2 0).
Proof.
  rewrite C104_vehicle. assert (E : updates (vehicle_plant vg_car vp_rcar) ([[]], [1]) false (mkV 0 0 0 1 0) [(mkVCm 1 0, [1])] = Some (mkV 1 0 0 2 0)).
  { cbn -[vehicle_dynamics]. unfold vehicle_dynamics, vst_add, vst_scale, apply_full_acceleration_limits, apply_speed_constraint, apply_acceleration_limits, steering_constraint. cbn [v_x v_y v_psi v_vx v_delta c_acc c_ddelta vp_m vp_rcar mp_vlo mp_vhi mp_alo mp_ahi vp_dmax vp_ddmax vg_car vg_wheelbase vg_lf vg_lr]. rewrite cos_0, sin_0, tan_0. unfold Rdiv. f_equal. f_equal; cmp. }
  rewrite E. cbn [option_map]. unfold vst_at, placed. cbn [v_x v_y v_psi v_vx v_delta fst snd]. rewrite cos_PI2, sin_PI2. f_equal; f_equal; ring.
Qed.

(** ** C105 *)

(** Seen in a mirror, every model moves as it would with the commands of the mirror:
    left and right are treated alike, for every history of commands. *)
Theorem C105_vehicle : forall g p tab c st l, vpar_ok p ->
  updates (vehicle_plant g p) tab c (vst_mirror st) (mirrored vcm_mirror l) = option_map vst_mirror (updates (vehicle_plant g p) tab c st l).
Proof. exact C105_vehicle_pf. Qed.
Print Assumptions C105_vehicle.

Theorem C105_planner : forall g p tab x u hs dt, vpar_ok p ->
  successor g p (vst_mirror x) (vcm_mirror u) dt = vst_mirror (successor g p x u dt) /\
  forall y, successor_ivp g tab (vst_mirror x) (vcm_mirror u) hs = Ok (vst_mirror y) <-> successor_ivp g tab x u hs = Ok y.
Proof. exact C105_planner_pf. Qed.
Print Assumptions C105_planner.

Theorem C105_vehicle_dyn : forall g p pf pr tab c st l, vpar_ok p ->
  updates (vehicle_dyn_plant g p pf pr) tab c (dst_mirror st) (mirrored vcm_mirror l) = option_map dst_mirror (updates (vehicle_dyn_plant g p pf pr) tab c st l).
Proof. exact C105_vehicle_dyn_pf. Qed.
Print Assumptions C105_vehicle_dyn.

Theorem C105_pedestrian : forall p tab c st l, ppar_ok p ->
  updates (pedestrian_plant p) tab c (st6_mirror st) (mirrored pcm_mirror l) = option_map st6_mirror (updates (pedestrian_plant p) tab c st l).
Proof. exact C105_pedestrian_pf. Qed.
Print Assumptions C105_pedestrian.

Theorem C105_diff_drive : forall wb wr lo hi tab c st l,
  updates (diff_drive_plant wb wr lo hi) tab c (st3_mirror st) (mirrored wcm_mirror l) = option_map st3_mirror (updates (diff_drive_plant wb wr lo hi) tab c st l).
Proof. exact C105_diff_drive_pf. Qed.
Print Assumptions C105_diff_drive.

Theorem C105_spacecraft : forall p lo hi w m Iz tab c st l, lo = - hi ->
  updates (spacecraft_plant p lo hi w m Iz) tab c (st6_mirror st) (mirrored scm_mirror l) = option_map st6_mirror (updates (spacecraft_plant p lo hi w m Iz) tab c st l).
Proof. exact C105_spacecraft_pf. Qed.
Print Assumptions C105_spacecraft.

(** Obstacles whose limits of speed and acceleration are the same forwards and
    backwards. *)
Theorem C105_obstacle : forall p lo hi tab c st l, lo = - hi -> mparams_ok p -> mp_vlo p = - mp_vhi p -> mp_alo p = - mp_ahi p ->
  updates (obstacle_plant p lo hi) tab c (st6_mirror st) (mirrored ocm_mirror l) = option_map st6_mirror (updates (obstacle_plant p lo hi) tab c st l).
Proof. exact C105_obstacle_pf. Qed.
Print Assumptions C105_obstacle.

(** Rockets: the two thrusters change places. *)
Theorem C105_rocket : forall p Iz l_m tab c st l,
  updates (rocket_plant p Iz l_m) tab c (rocket_mirror st) (mirrored rcm_mirror l) = option_map rocket_mirror (updates (rocket_plant p Iz l_m) tab c st l).
Proof. exact C105_rocket_pf. Qed.
Print Assumptions C105_rocket.

Theorem C105_spaceship : forall p Iz l_r tab c st l, rp_lo p = - rp_hi p -> rp_dlo p = - rp_dhi p -> rp_dlo p < rp_dhi p ->
  updates (spaceship_plant p Iz l_r) tab c (spaceship_mirror st) (mirrored ssc_mirror l) = option_map spaceship_mirror (updates (spaceship_plant p Iz l_r) tab c st l).
Proof. exact C105_spaceship_pf. Qed.
Print Assumptions C105_spaceship.

(** Refuted: the limits of the forward speed of an obstacle are also applied to its
    lateral speed, so an obstacle that may move faster forwards than backwards may
    also move faster to the left than to the right. *)
Theorem C105_obstacle_refuted : exists p lo hi tab st l x y, lo = - hi /\ mparams_ok p /\
  updates (obstacle_plant p lo hi) tab false st l = Some x /\ s_vy x = 2 /\
  updates (obstacle_plant p lo hi) tab false (st6_mirror st) (mirrored ocm_mirror l) = Some y /\ s_vy y = -1.
Proof. exact C105_obstacle_refuted_pf. Qed.
Print Assumptions C105_obstacle_refuted.

Example C105_ex : vpar_ok vp_rcar /\ ppar_ok pp_default /\ rp_lo sp_default = - rp_hi sp_default /\ rp_dlo sp_default = - rp_dhi sp_default /\ rp_dlo sp_default < rp_dhi sp_default /\
  mirrored vcm_mirror [(mkVCm 1 (1 / 2), [1])] = [(mkVCm 1 (- (1 / 2)), [1])].
Proof.
  pose proof PI_RGT_0. unfold vpar_ok, ppar_ok, mparams_ok, vp_rcar, pp_default, sp_default. cbn [vp_m vp_dmax vp_ddmax mp_vlo mp_vhi mp_alo mp_ahi pp_m pp_dtheta rp_lo rp_hi rp_dlo rp_dhi]. repeat split; lra.
Qed.

(** ** C106 *)

(** As long as no limit is reached, the planner's model predicts exactly what the
    simulator's model does, step for step, with every Runge-Kutta method whose weights
    add up to one (RK45 is one). *)
Theorem C106_same_steps : forall g p tab x u hs, consistent tab -> Forall (fun h => 0 <= h) hs -> unlimited p x u (sum hs) ->
  exists y, successor_ivp g tab x u hs = Ok y /\ update (vehicle_plant g p) tab false x u hs = Some y /\ v_vx y = v_vx x + c_acc u * sum hs /\ v_delta y = v_delta x + c_ddelta u * sum hs.
Proof. exact C106_same_steps_pf. Qed.
Print Assumptions C106_same_steps.

Theorem C106_rk45 : consistent rk45.
Proof. exact C106_rk45_pf. Qed.
Print Assumptions C106_rk45.

(** The same of the exact motions. *)
Theorem C106_same_motion : forall g p x x' u T, motion5 (fun t => bicycle_dynamics g (x t) u) x T -> vehicle_motion g p (fun _ => u) x' T -> x 0 = x' 0 -> unlimited p (x 0) u T ->
  forall t, 0 <= t <= T -> x t = x' t.
Proof. exact C106_same_motion_pf. Qed.
Print Assumptions C106_same_motion.

(** The one-step prediction always stays within the limits of speed and steering; while
    no limit is reached it is one step of Euler's method on the simulator's model. *)
Theorem C106_one_step : forall g p x u dt, vpar_ok p ->
  let y := successor g p x u dt in
  within (v_vx y) (mp_vlo (vp_m p)) (mp_vhi (vp_m p)) /\ within (v_delta y) (- vp_dmax p) (vp_dmax p) /\
  (0 <= dt -> unlimited p x u dt -> update (vehicle_plant g p) ([[]], [1]) false x u [dt] = Some y).
Proof. exact C106_one_step_pf. Qed.
Print Assumptions C106_one_step.

(** Speed and steering predicted by integration, whatever the limits. *)
Theorem C106_integrated : forall g tab x u hs, consistent tab -> Forall (fun h => 0 <= h) hs ->
  exists y, successor_ivp g tab x u hs = Ok y /\ v_vx y = v_vx x + c_acc u * sum hs /\ v_delta y = v_delta x + c_ddelta u * sum hs.
Proof. exact C106_integrated_pf. Qed.
Print Assumptions C106_integrated.

(** Refuted: the integrated prediction does not respect the limits, and then differs
    from what the simulator does. *)
Theorem C106_limits_refuted : exists g p x u hs, vpar_ok p /\ within (v_vx x) (mp_vlo (vp_m p)) (mp_vhi (vp_m p)) /\ within (v_delta x) (- vp_dmax p) (vp_dmax p) /\ within (c_acc u) (mp_alo (vp_m p)) (mp_ahi (vp_m p)) /\
  within (c_ddelta u) (- vp_ddmax p) (vp_ddmax p) /\ Forall (fun h => 0 <= h) hs /\
  forall tab, consistent tab -> exists y, successor_ivp g tab x u hs = Ok y /\ mp_vhi (vp_m p) < v_vx y /\ vp_dmax p < v_delta y.
Proof. exact C106_limits_refuted_pf. Qed.
Print Assumptions C106_limits_refuted.

Example C106_ex : unlimited vp_rcar (mkV 0 0 0 5 0) (mkVCm 1 (1 / 10)) (sum [1 / 2; 1 / 2]) /\ vpar_ok vp_rcar.
Proof. unfold unlimited, within, inside, vpar_ok, mparams_ok, vp_rcar, sum. cbn. repeat split; lra. Qed.
