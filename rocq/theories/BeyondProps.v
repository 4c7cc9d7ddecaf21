(* Generated from tools/Beyond.src by tools/gen_props.py. *)
(** Speeds beyond the limits. *)
From Coq Require Import String Reals List Bool Arith Lra Lia Psatz.
From Verif Require Import DynSpec DynProofs Base R2 GeoModel DataModel DataSpec DataProofs DataMain LaneModel BodyModel BodySpec BodyMain DynModel DrawModel CollModel CollSpec CollProofs CollMain BuildModel BuildSpec BuildMain ImpactModel ImpactSpec ImpactMain BeyondSpec.
Import ListNotations.
Open Scope R_scope.
Local Arguments aget {K V} eqb d k : simpl nomatch.
Local Arguments aset {K V} eqb d k v : simpl nomatch.
From Verif Require Import BeyondMain.

(** ** C143 *)

(** Whatever speed and steering angle a kinematic vehicle has at a time s, and whatever is
    commanded, from then on it goes no further beyond its limits than it was; in
    particular it never leaves them once it is inside. *)
Theorem C143_vehicle : forall g p u x T, vpar_ok p -> vehicle_motion g p u x T -> forall s t, 0 <= s -> s <= t -> t <= T ->
  within (v_vx (x t)) (widened_lo (mp_vlo (vp_m p)) (v_vx (x s))) (widened_hi (mp_vhi (vp_m p)) (v_vx (x s))) /\
  within (v_delta (x t)) (widened_lo (- vp_dmax p) (v_delta (x s))) (widened_hi (vp_dmax p) (v_delta (x s))).
Proof. exact C143_vehicle_pf. Qed.
Print Assumptions C143_vehicle.

(** The same for dynamic obstacles, in all three components. *)
Theorem C143_obstacle : forall p lo hi u x T, motion6 (fun t => obstacle_dynamics p lo hi (x t) (u t)) x T -> forall s t, 0 <= s -> s <= t -> t <= T ->
  within (s_vx (x t)) (widened_lo (mp_vlo p) (s_vx (x s))) (widened_hi (mp_vhi p) (s_vx (x s))) /\
  within (s_vy (x t)) (widened_lo (mp_vlo p) (s_vy (x s))) (widened_hi (mp_vhi p) (s_vy (x s))) /\
  within (s_dpsi (x t)) (widened_lo lo (s_dpsi (x s))) (widened_hi hi (s_dpsi (x s))).
Proof. exact C143_obstacle_pf. Qed.
Print Assumptions C143_obstacle.

(** The same for the forward speed of a pedestrian that has not collided. *)
Theorem C143_pedestrian : forall p u x T, motion6 (fun t => pedestrian_dynamics p false (x 0) (x t) (u t)) x T -> forall s t, 0 <= s -> s <= t -> t <= T ->
  within (s_vx (x t)) (widened_lo (mp_vlo (pp_m p)) (s_vx (x s))) (widened_hi (mp_vhi (pp_m p)) (s_vx (x s))).
Proof. exact C143_pedestrian_pf. Qed.
Print Assumptions C143_pedestrian.

(** The same for the yaw rate of a spacecraft and the nozzle angle of rockets and
    spaceships. *)
Theorem C143_spacecraft_rotation : forall p lo hi w m Iz u x T, motion6 (fun t => spacecraft_dynamics p lo hi w m Iz (x t) (u t)) x T -> forall s t, 0 <= s -> s <= t -> t <= T ->
  within (s_dpsi (x t)) (widened_lo lo (s_dpsi (x s))) (widened_hi hi (s_dpsi (x s))).
Proof. exact C143_spacecraft_rotation_pf. Qed.
Print Assumptions C143_spacecraft_rotation.

Theorem C143_rocket_nozzle : forall p Iz l u x T, motion8 (fun t => rocket_dynamics p Iz l (x t) (u t)) x T -> forall s t, 0 <= s -> s <= t -> t <= T ->
  within (r_ang (x t)) (widened_lo (rp_lo p) (r_ang (x s))) (widened_hi (rp_hi p) (r_ang (x s))).
Proof. exact C143_rocket_nozzle_pf. Qed.
Print Assumptions C143_rocket_nozzle.

Theorem C143_spaceship_nozzle : forall p Iz l u x T, motion8 (fun t => spaceship_dynamics p Iz l (x t) (u t)) x T -> forall s t, 0 <= s -> s <= t -> t <= T ->
  within (r_ang (x t)) (widened_lo (rp_lo p) (r_ang (x s))) (widened_hi (rp_hi p) (r_ang (x s))).
Proof. exact C143_spaceship_nozzle_pf. Qed.
Print Assumptions C143_spaceship_nozzle.

(** A vehicle with straight wheels that is at least as fast as its limit and whose agent
    commands nothing keeps that speed: the limits do not bring it back. *)
Theorem C143_coasts : forall g p v T, vpar_ok p -> mp_alo (vp_m p) <= 0 <= mp_ahi (vp_m p) -> mp_vhi (vp_m p) <= v ->
  vehicle_motion g p (fun _ => mkVCm 0 0) (fun t => mkV (0 + v * t) 0 0 v 0) T.
Proof. exact C143_coasts_pf. Qed.
Print Assumptions C143_coasts.

(** A collision may push a vehicle beyond its limits although both bodies were within
    theirs: a parked default car, hit from behind by a heavy obstacle at 30 m/s, leaves at
    more than 130 km/h. *)
Theorem C143_collision_refuted : exists sh ms ms' rep n P car block car' block' lo hi blo bhi w,
  (exists x0, default_model Car x0 = Ok car) /\ crash joined_points 16 any_shape mean_centroid sh 1 2 ms None 0 ms' rep n P car block car' block' /\
  speed_limits car lo hi /\ has (mo_state car) "vx" 0 /\ lo < 0 < hi /\
  obstacle_limits block blo bhi /\ has (mo_state block) "vx" (-30) /\ has (mo_state block) "vy" 0 /\ blo <= -30 <= bhi /\
  stands car (0, 0) PI /\ stands car' (0, 0) PI /\ moves car' (- w, 0) 0 /\ hi < w.
Proof. exact C143_collision_refuted_pf. Qed.
Print Assumptions C143_collision_refuted.

(** A car beyond its limit that coasts. *)
Example C143_ex : vpar_ok vp_rcar /\ mp_vhi (vp_m vp_rcar) < 450 / 11 /\ vehicle_motion vg_car vp_rcar (fun _ => mkVCm 0 0) (fun t => mkV (0 + 450 / 11 * t) 0 0 (450 / 11) 0) 5.
Proof.
  assert (O : vpar_ok vp_rcar) by (unfold vpar_ok, mparams_ok, vp_rcar; cbn [vp_m vp_dmax vp_ddmax mp_vlo mp_vhi mp_alo mp_ahi]; lra).
  assert (H : mp_vhi (vp_m vp_rcar) < 450 / 11) by (unfold vp_rcar; cbn [vp_m mp_vhi]; lra).
  split; [exact O|]. split; [exact H|]. apply C143_coasts; [exact O|unfold vp_rcar; cbn [vp_m mp_alo mp_ahi]; lra|lra].
Qed.

(** An obstacle beyond its limits in speed and one that turns faster than it may. *)
Example C143_obstacle_ex : motion6 (fun t => obstacle_dynamics (mkMP (-1) 1 (-5) 5) (-2) 2 (mk6 (0 + 40 * t) 0 0 40 0 0) (mkOC 0 0 0)) (fun t => mk6 (0 + 40 * t) 0 0 40 0 0) 5 /\
  motion6 (fun t => obstacle_dynamics (mkMP (-1) 1 (-5) 5) (-2) 2 (mk6 0 0 (0 + 3 * t) 0 0 3) (mkOC 0 0 0)) (fun t => mk6 0 0 (0 + 3 * t) 0 0 3) 5.
Proof.
  assert (A : forall v a, a = 0 -> apply_full_acceleration_limits v a (mkMP (-1) 1 (-5) 5) = 0) by (intros v a ->; unfold apply_full_acceleration_limits, apply_speed_constraint, apply_acceleration_limits; cbn [mp_vlo mp_vhi mp_alo mp_ahi]; cmp).
  assert (B : forall w, apply_rot_speed_constraint w 0 (-2) 2 = 0) by (intros w; unfold apply_rot_speed_constraint; cmp).
  unfold motion6, obstacle_dynamics. cbn [s_x s_y s_psi s_vx s_vy s_dpsi oc_x oc_y oc_psi]. rewrite !B. rewrite !A by ring. split.
  - rewrite cos_0, sin_0. split; [eapply evolves_ext; [apply (evolves_affine 0 40)| reflexivity| intros; cbn; ring]|].
    repeat (split; [eapply evolves_ext; [apply evolves_const| reflexivity| intros; cbn; ring]|]). eapply evolves_ext; [apply evolves_const| reflexivity| intros; cbn; ring].
  - split; [eapply evolves_ext; [apply evolves_const| reflexivity| intros; cbn; ring]|]. split; [eapply evolves_ext; [apply evolves_const| reflexivity| intros; cbn; ring]|].
    split; [apply evolves_affine|]. repeat (split; [eapply evolves_ext; [apply evolves_const| reflexivity| intros; cbn; ring]|]). eapply evolves_ext; [apply evolves_const| reflexivity| intros; cbn; ring].
Qed.
