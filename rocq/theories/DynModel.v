(** Model of the constraints and of the dynamics of the simulated models,
    src/dg_commons/sim/models/.  Numbers are reals; rounding is not modelled. *)
From Coq Require Import Reals List Bool String.
From Verif Require Import Base R2 DataModel.
Import ListNotations.
Open Scope R_scope.

(** Comparison of numbers.
    Used for [apply_speed_constraint], model_utils.py:10-17; [apply_acceleration_limits], model_utils.py:20-28; [apply_rot_speed_constraint], model_utils.py:39-46. *)
Definition ltb (a b : R) : bool := if Rlt_dec a b then true else false.
Definition leb (a b : R) : bool := if Rle_dec a b then true else false.
(** np.clip, and max(lo, min(x, hi)).
    Used for [diff_drive_dynamics], diff_drive.py:155-169. *)
Definition rclip (x lo hi : R) : R := Rmin (Rmax x lo) hi.

(** ModelParameters, model_structures.py:74-79. *)
Record mparams := mkMP { mp_vlo : R; mp_vhi : R; mp_alo : R; mp_ahi : R }.
(** ModelParameters.__post_init__, model_structures.py:81-83. *)
Definition mparams_ok (p : mparams) : Prop := mp_vlo p < mp_vhi p /\ mp_alo p < mp_ahi p.

(** apply_speed_constraint, model_utils.py:10-17. *)
Definition apply_speed_constraint (speed acceleration : R) (p : mparams) : R :=
  if (leb speed (mp_vlo p) && ltb acceleration 0) || (leb (mp_vhi p) speed && ltb 0 acceleration) then 0 else acceleration.
(** apply_acceleration_limits, model_utils.py:20-28. *)
Definition apply_acceleration_limits (acceleration : R) (p : mparams) : R :=
  if ltb acceleration (mp_alo p) then mp_alo p
  else if ltb (mp_ahi p) acceleration then mp_ahi p else acceleration.
(** apply_full_acceleration_limits, model_utils.py:31-35. *)
Definition apply_full_acceleration_limits (speed acceleration : R) (p : mparams) : R :=
  apply_speed_constraint speed (apply_acceleration_limits acceleration p) p.
(** apply_rot_speed_constraint, model_utils.py:39-46; lo, hi = p.dpsi_limits. *)
Definition apply_rot_speed_constraint (omega domega lo hi : R) : R :=
  if (leb omega lo && ltb domega 0) || (leb hi omega && ltb 0 domega) then 0 else domega.
(** apply_force_limits, model_utils.py:63-73; lo, hi = F_limits. *)
Definition apply_force_limits (force lo hi : R) : R :=
  if negb (ltb lo force && ltb force hi) then Rmax lo (Rmin force hi) else force.
(** apply_ang_vel_limits, model_utils.py:76-90; lo, hi = p.ddelta_limits. *)
Definition apply_ang_vel_limits (ang_vel lo hi : R) : R :=
  if leb ang_vel lo then lo else if leb hi ang_vel then hi else ang_vel.
(** apply_ang_constraint, model_utils.py:93-101; lo, hi = p.delta_limits. *)
Definition apply_ang_constraint (ang dang lo hi : R) : R :=
  if (leb ang lo && ltb dang 0) || (leb hi ang && ltb 0 dang) then 0 else dang.
(** apply_full_ang_vel_limits, model_utils.py:104-108. *)
Definition apply_full_ang_vel_limits (ang dang lo hi dlo dhi : R) : R :=
  apply_ang_constraint ang (apply_ang_vel_limits dang dlo dhi) lo hi.
(** steering_constraint, vehicle_utils.py:34-53. *)
Definition steering_constraint (angle vel delta_max ddelta_max : R) : R :=
  if (leb angle (- delta_max) && ltb vel 0) || (leb delta_max angle && ltb 0 vel) then 0
  else if ltb vel (- ddelta_max) then - ddelta_max
  else if ltb ddelta_max vel then ddelta_max else vel.
(** rotation_constraint, pedestrian_utils.py:23-32. *)
Definition rotation_constraint (rot_velocity dtheta_max : R) : R :=
  if leb rot_velocity (- dtheta_max) then - dtheta_max else if leb dtheta_max rot_velocity then dtheta_max else rot_velocity.

(** *** States: the dataclasses of DataModel as records *)

(** VehicleState, vehicle.py:68-137. *)
Record vst := mkV { v_x : R; v_y : R; v_psi : R; v_vx : R; v_delta : R }.
(** VehicleStateDyn, vehicle_dynamic.py:18-71. *)
Record dst := mkD { d_x : R; d_y : R; d_psi : R; d_vx : R; d_vy : R; d_dpsi : R; d_delta : R }.
(** PedestrianState, pedestrian.py:80-152, SpacecraftState, spacecraft.py:61-133,
    DynObstacleState, obstacles_dyn.py:68-140. *)
Record st6 := mk6 { s_x : R; s_y : R; s_psi : R; s_vx : R; s_vy : R; s_dpsi : R }.
(** RocketState, rocket.py:71-153 ([r_ang] is phi), and SpaceshipState,
    spaceship.py:68-150 ([r_ang] is delta). *)
Record st8 := mk8 { r_x : R; r_y : R; r_psi : R; r_vx : R; r_vy : R; r_dpsi : R; r_ang : R; r_m : R }.
(** DiffDriveState, diff_drive.py:60-105. *)
Record st3 := mk3 { w_x : R; w_y : R; w_psi : R }.

(** As Python objects.  Used for [dynamics], vehicle.py:197-209. *)
Definition vst_obj (s : vst) : obj := mkO "VehicleState" [("x", Num (v_x s)); ("y", Num (v_y s)); ("psi", Num (v_psi s)); ("vx", Num (v_vx s)); ("delta", Num (v_delta s))]%string.
Definition dst_obj (s : dst) : obj := mkO "VehicleStateDyn" [("x", Num (d_x s)); ("y", Num (d_y s)); ("psi", Num (d_psi s)); ("vx", Num (d_vx s)); ("delta", Num (d_delta s)); ("vy", Num (d_vy s)); ("dpsi", Num (d_dpsi s))]%string.
Definition st6_obj (c : string) (s : st6) : obj := mkO c [("x", Num (s_x s)); ("y", Num (s_y s)); ("psi", Num (s_psi s)); ("vx", Num (s_vx s)); ("vy", Num (s_vy s)); ("dpsi", Num (s_dpsi s))]%string.
Definition st8_obj (c ang : string) (s : st8) : obj := mkO c [("x", Num (r_x s)); ("y", Num (r_y s)); ("psi", Num (r_psi s)); ("vx", Num (r_vx s)); ("vy", Num (r_vy s)); ("dpsi", Num (r_dpsi s)); (ang, Num (r_ang s)); ("m", Num (r_m s))]%string.
Definition st3_obj (s : st3) : obj := mkO "DiffDriveState" [("x", Num (w_x s)); ("y", Num (w_y s)); ("psi", Num (w_psi s))]%string.

(** *** Vehicles *)

(** Used for [two_wheels], model_structures.py:37-38; [vehicle_plant], vehicle.py:169-178. *)
Inductive vtype := CAR | TRUCK | MOTORCYCLE | BICYCLE | DIFF_DRIVE | OTHER_TYPE.
Definition vtype_eqb (a b : vtype) : bool := match a, b with CAR, CAR | TRUCK, TRUCK | MOTORCYCLE, MOTORCYCLE | BICYCLE, BICYCLE | DIFF_DRIVE, DIFF_DRIVE | OTHER_TYPE, OTHER_TYPE => true | _, _ => false end.
(** TwoWheelsTypes, model_structures.py:37-38. *)
Definition two_wheels (t : vtype) : bool := match t with BICYCLE | MOTORCYCLE | DIFF_DRIVE => true | _ => false end.

(** VehicleGeometry, vehicle_structures.py:24-45, ModelGeometry, model_structures.py:42-50. *)
Record vgeo := mkVG { vg_type : vtype; vg_m : R; vg_Iz : R; vg_w_half : R; vg_lf : R; vg_lr : R; vg_c_drag : R; vg_a_drag : R; vg_c_rr_f : R; vg_c_rr_r : R; vg_h : R }.
(** wheelbase, vehicle_structures.py:119-122. *)
Definition vg_wheelbase (g : vgeo) : R := vg_lf g + vg_lr g.
(** default_car, default_bicycle, default_truck, vehicle_structures.py:48-109. *)
Definition vg_car := mkVG CAR 1300 1600 (8 / 10) (12 / 10) (12 / 10) (3756 / 10000) 2 (3 / 1000) (3 / 1000) (7 / 10).
Definition vg_bicycle := mkVG BICYCLE 85 90 (1 / 4) 1 1 (1 / 100) (2 / 10) (3 / 1000) (3 / 1000) (7 / 10).
Definition vg_truck := mkVG TRUCK 8000 6300 (12 / 10) 4 4 (3756 / 10000) 4 (3 / 1000) (3 / 1000) (7 / 10).

(** VehicleParameters, vehicle_utils.py:9-31. *)
Record vpar := mkVPR { vp_m : mparams; vp_dmax : R; vp_ddmax : R }.
Definition vpar_ok (p : vpar) : Prop := mparams_ok (vp_m p) /\ 0 < vp_dmax p /\ 0 < vp_ddmax p.
Definition vp_rcar := mkVPR (mkMP (- 10 / (36 / 10)) (130 / (36 / 10)) (-8) 5) 1 (1 / 2).
Definition vp_rtruck := mkVPR (mkMP (- 10 / (36 / 10)) (90 / (36 / 10)) (-6) (7 / 2)) 1 (1 / 2).
Definition vp_rbicycle := mkVPR (mkMP (- 1 / (36 / 10)) (50 / (36 / 10)) (-4) 3) 1 (1 / 2).

(** VehicleCommands without the lights.
    Used for [vehicle_dynamics], vehicle.py:197-209; [wheel_forces], vehicle_dynamic.py:144-174. *)
Record vcm := mkVCm { c_acc : R; c_ddelta : R }.

(** VehicleModel.dynamics, vehicle.py:197-209. *)
Definition vehicle_dynamics (g : vgeo) (p : vpar) (x0 : vst) (u : vcm) : vst :=
  let vx := v_vx x0 in
  let dtheta := vx * tan (v_delta x0) / vg_wheelbase g in
  let vy := dtheta * vg_lr g in
  let costh := cos (v_psi x0) in
  let sinth := sin (v_psi x0) in
  let xdot := vx * costh - vy * sinth in
  let ydot := vx * sinth + vy * costh in
  let ddelta := steering_constraint (v_delta x0) (c_ddelta u) (vp_dmax p) (vp_ddmax p) in
  let acc := apply_full_acceleration_limits (v_vx x0) (c_acc u) (vp_m p) in
  mkV xdot ydot dtheta acc ddelta.

(** Pacejka and Pacejka4p, tires.py:9-58. *)
Inductive pacejka := P3 (B C D : R) | P4 (B C D E : R).
Definition pac_D (t : pacejka) : R := match t with P3 _ _ D | P4 _ _ D _ => D end.
(** evaluate, tires.py:18-19 and 57-58. *)
Definition pac_evaluate (t : pacejka) (slip : R) : R :=
  match t with
  | P3 B C D => D * sin (C * atan (B * slip))
  | P4 B C D E => D * sin (C * atan (B * slip - E * (B * slip - E * atan (B * slip))))
  end.
(** The default tyres, tires.py:21-49, as class methods of the class given first
    (false: Pacejka, true: Pacejka4p): the class is not used. *)
Definition default_car_front (cls_4p : bool) := P3 10 (19 / 10) (9 / 10).
Definition default_car_rear (cls_4p : bool) := P3 11 (19 / 10) 1.
Definition default_truck_front (cls_4p : bool) := P3 10 (19 / 10) (9 / 10).
Definition default_truck_rear (cls_4p : bool) := P3 11 (19 / 10) 1.
Definition default_bicycle_front (cls_4p : bool) := P3 12 (23 / 10) (8 / 10).
Definition default_bicycle_rear (cls_4p : bool) := P3 12 2 1.
Definition is_4p (t : pacejka) : bool := match t with P4 _ _ _ _ => true | _ => false end.

(** G and rho, models/utils.py:20, 23. *)
Definition G : R := 981 / 100.
Definition rho : R := 1249512 / 1000000.

(** get_acceleration_split, vehicle_dynamic.py:220-231. *)
Definition acceleration_split (t : vtype) (Facc : R) : R * R :=
  if leb Facc 0 then (Facc * (6 / 10), Facc * (4 / 10))
  else if two_wheels t then (Facc * (1 / 2), Facc * (1 / 2)) else (Facc * (1 / 2), Facc * (1 / 2)).
(** get_extra_collision_friction_acc, vehicle_dynamic.py:233-241: from the state the
    model had when update was called. *)
Definition vehicle_friction (t : vtype) (collided : bool) (self : dst) : R * R * R :=
  let mu := if two_wheels t then 3 else 1 in
  if collided then (- mu * d_vx self, - mu * d_vy self, - mu * d_dpsi self) else (0, 0, 0).

(** math.atan(y / x) with numpy numbers: None for 0/0 (not a number).
    Used for [wheel_forces], vehicle_dynamic.py:144-174. *)
Definition np_atan_div (y x : R) : option R :=
  if Req_EM_T x 0 then (if ltb 0 y then Some (PI / 2) else if ltb y 0 then Some (- (PI / 2)) else None) else Some (atan (y / x)).
(** math.sqrt(1 - (Fy / (Fn * D)) ** 2), None for a division by zero or a
    negative argument, vehicle_dynamic.py:163, 174. *)
Definition saturation (Fy Fn D : R) : option R :=
  if Req_EM_T (Fn * D) 0 then None
  else let a := 1 - (Fy / (Fn * D)) ^ 2 in if ltb a 0 then None else Some (sqrt a).

(** The normal forces, vehicle_dynamic.py:147-149. *)
Definition normal_forces (g : vgeo) (acc : R) : R * R :=
  let load_transfer := vg_h g * acc in
  (- vg_m g * (G * vg_lr g - load_transfer) / vg_wheelbase g, - vg_m g * (G * vg_lf g + load_transfer) / vg_wheelbase g).

(** The forces at the wheels: longitudinal and lateral force at the front tyre, in the
    frame of the tyre, and at the rear tyre; vehicle_dynamic.py:144-174. *)
Definition wheel_forces (g : vgeo) (p : vpar) (pf pr : pacejka) (x0 : dst) (u : vcm) : option ((R * R) * (R * R)) :=
  let m := vg_m g in
  let acc := apply_full_acceleration_limits (d_vx x0) (c_acc u) (vp_m p) in
  let (F1_n, F2_n) := normal_forces g acc in
  let F_rr_f := vg_c_rr_f g * F1_n in
  let F_rr_r := vg_c_rr_r g * F2_n in
  let (Facc1, Facc2) := acceleration_split (vg_type g) (m * acc) in
  let vel_1_tyre := rot (- d_delta x0) (d_vx x0, d_vy x0 + vg_lf g * d_dpsi x0) in
  match np_atan_div (snd vel_1_tyre) (fst vel_1_tyre) with
  | None => None
  | Some slip_angle_1 =>
      let F1y_tyre := pac_evaluate pf slip_angle_1 * F1_n in
      match saturation F1y_tyre F1_n (pac_D pf) with
      | None => None
      | Some s1 =>
          match np_atan_div (d_vy x0 - vg_lr g * d_dpsi x0) (d_vx x0) with
          | None => None
          | Some slip_angle_2 =>
              let F2y := pac_evaluate pr slip_angle_2 * F2_n in
              match saturation F2y F2_n (pac_D pr) with
              | None => None
              | Some s2 => Some (((Facc1 + F_rr_f) * s1, F1y_tyre), ((Facc2 + F_rr_r) * s2, F2y))
              end
          end
      end
  end.

(** VehicleModelDyn.dynamics, vehicle_dynamic.py:127-200; [self] is the state of the
    model, None means that the result is not a number or an exception. *)
Definition vehicle_dyn_dynamics (g : vgeo) (p : vpar) (pf pr : pacejka) (collided : bool) (self x0 : dst) (u : vcm) : option dst :=
  let '(friction_x, friction_y, friction_psi) := vehicle_friction (vg_type g) collided self in
  if ltb (d_vx x0) (1 / 10) then
    let k := vehicle_dynamics g p (mkV (d_x x0) (d_y x0) (d_psi x0) (d_vx x0) (d_delta x0)) u in
    Some (mkD (v_x k) (v_y k) (v_psi k) (v_vx k + friction_x) friction_y friction_psi (v_delta k))
  else
    match wheel_forces g p pf pr x0 u with
    | None => None
    | Some (Fw1, (Facc2_sat, F2y)) =>
        let m := vg_m g in
        let ddelta := steering_constraint (d_delta x0) (c_ddelta u) (vp_dmax p) (vp_ddmax p) in
        let F1 := rot (d_delta x0) Fw1 in
        let F_drag := - (1 / 2) * d_vx x0 * vg_a_drag g * vg_c_drag g * rho ^ 2 in
        let acc_x := (fst F1 + F_drag + Facc2_sat) / m + d_dpsi x0 * d_vy x0 in
        let costh := cos (d_psi x0) in
        let sinth := sin (d_psi x0) in
        let xdot := d_vx x0 * costh - d_vy x0 * sinth in
        let ydot := d_vx x0 * sinth + d_vy x0 * costh in
        let acc_y := (snd F1 + F2y) / m - d_dpsi x0 * d_vx x0 in
        let ddtheta := (snd F1 * vg_lf g - F2y * vg_lr g) / vg_Iz g in
        Some (mkD xdot ydot (d_dpsi x0) (acc_x + friction_x) (acc_y + friction_y) (ddtheta + friction_psi) ddelta)
    end.

(** *** The other models *)

(** PedestrianCommands; PedestrianParameters, pedestrian_utils.py:10-20. *)
Record pcm := mkPC { pc_acc : R; pc_dpsi : R }.
Record ppar := mkPP { pp_m : mparams; pp_dtheta : R }.
Definition ppar_ok (p : ppar) : Prop := mparams_ok (pp_m p) /\ 0 < pp_dtheta p.
Definition pp_default := mkPP (mkMP (- 5 / (36 / 10)) (20 / (36 / 10)) (-3) 5) PI.
(** PedestrianModel.dynamics and get_extra_collision_friction_acc, pedestrian.py:206-220,
    266-274. *)
Definition pedestrian_dynamics (p : ppar) (collided : bool) (self x0 : st6) (u : pcm) : st6 :=
  let dpsi := rotation_constraint (pc_dpsi u) (pp_dtheta p) in
  let acc := apply_full_acceleration_limits (s_vx x0) (pc_acc u) (pp_m p) in
  let cospsi := cos (s_psi x0) in
  let sinpsi := sin (s_psi x0) in
  let '(fx, fy, fpsi) := if collided then (- 2 * s_vx self, - 2 * s_vy self, - 2 * s_dpsi self) else (0, 0, 0) in
  mk6 (s_vx x0 * cospsi - s_vy x0 * sinpsi) (s_vx x0 * sinpsi + s_vy x0 * cospsi) dpsi (acc + fx) fy fpsi.

(** DiffDriveCommands; DiffDriveModel.dynamics, diff_drive.py:155-169. *)
Record wcm := mkWC { wc_l : R; wc_r : R }.
Definition diff_drive_dynamics (wheelbase wheelradius lo hi : R) (x0 : st3) (u : wcm) : st3 :=
  let omega_l := rclip (wc_l u) lo hi in
  let omega_r := rclip (wc_r u) lo hi in
  let omega_sum := omega_l + omega_r in
  mk3 (cos (w_psi x0) * omega_sum / 2 * wheelradius) (sin (w_psi x0) * omega_sum / 2 * wheelradius) ((omega_r - omega_l) / wheelbase * wheelradius).

(** SpacecraftCommands; SpacecraftParameters with dpsi_limits; geometry: w_half, m, Iz;
    SpacecraftModel.dynamics, spacecraft.py:186-204. *)
Record scm := mkSC { sc_l : R; sc_r : R }.
Definition spacecraft_dynamics (p : mparams) (lo hi w_half m Iz : R) (x0 : st6) (u : scm) : st6 :=
  let acc_lx := apply_acceleration_limits (sc_l u) p in
  let acc_rx := apply_acceleration_limits (sc_r u) p in
  let acc_sum := acc_lx + acc_rx in
  let acc_diff := acc_rx - acc_lx in
  let costh := cos (s_psi x0) in
  let sinth := sin (s_psi x0) in
  let dx := s_vx x0 * costh - s_vy x0 * sinth in
  let dy := s_vx x0 * sinth + s_vy x0 * costh in
  let ax := acc_sum + s_vy x0 * s_dpsi x0 in
  let ay := - s_vx x0 * s_dpsi x0 in
  let ddpsi := w_half * m / Iz * acc_diff in
  mk6 dx dy (s_dpsi x0) ax ay (apply_rot_speed_constraint (s_dpsi x0) ddpsi lo hi).

(** DynObstacleCommands; DynObstacleModel.dynamics, obstacles_dyn.py:189-200. *)
Record ocm := mkOC { oc_x : R; oc_y : R; oc_psi : R }.
Definition obstacle_dynamics (p : mparams) (lo hi : R) (x0 : st6) (u : ocm) : st6 :=
  let vx := s_vx x0 in
  let vy := s_vy x0 in
  let costh := cos (s_psi x0) in
  let sinth := sin (s_psi x0) in
  mk6 (vx * costh - vy * sinth) (vx * sinth + vy * costh) (s_dpsi x0)
      (apply_full_acceleration_limits vx (oc_x u + s_dpsi x0 * vy) p)
      (apply_full_acceleration_limits vy (oc_y u - s_dpsi x0 * vx) p)
      (apply_rot_speed_constraint (s_dpsi x0) (oc_psi u) lo hi).

(** RocketCommands; RocketParameters, rocket_structures.py:180-212;
    RocketModel.dynamics, rocket.py:207-248. *)
Record rcm := mkRC { rc_l : R; rc_r : R; rc_dphi : R }.
Record rpar := mkRP { rp_mv : R; rp_CT : R; rp_Flo : R; rp_Fhi : R; rp_lo : R; rp_hi : R; rp_dlo : R; rp_dhi : R }.
(** The thrusts applied, rocket.py:222-230. *)
Definition rocket_thrust (p : rpar) (x0 : st8) (u : rcm) : R * R :=
  if leb (r_m x0) (rp_mv p) then (0, 0) else (apply_force_limits (rc_l u) (rp_Flo p) (rp_Fhi p), apply_force_limits (rc_r u) (rp_Flo p) (rp_Fhi p)).
Definition rocket_dynamics (p : rpar) (Iz l_m : R) (x0 : st8) (u : rcm) : st8 :=
  let (F_lx, F_rx) := rocket_thrust p x0 u in
  let dphi := apply_full_ang_vel_limits (r_ang x0) (rc_dphi u) (rp_lo p) (rp_hi p) (rp_dlo p) (rp_dhi p) in
  let psi := r_psi x0 in
  let phi := r_ang x0 in
  let m := r_m x0 in
  mk8 (r_vx x0) (r_vy x0) (r_dpsi x0)
      (1 / m * (sin (psi + phi) * F_lx + sin (phi - psi) * F_rx))
      (1 / m * (- cos (psi + phi) * F_lx + cos (phi - psi) * F_rx))
      (1 / Iz * l_m * (cos phi * F_rx - cos phi * F_lx))
      dphi (- rp_CT p * (F_lx + F_rx)).
(** RocketParameters.default, rocket_structures.py:193-203. *)
Definition rp_default := mkRP 2 (1 / 100) 0 2 (- (60 * PI / 180)) (60 * PI / 180) (- (20 * PI / 180)) (20 * PI / 180).

(** SpaceshipCommands; SpaceshipModel.dynamics, spaceship.py:203-241; the parameters are
    those of [rpar] with thrust_limits for F_limits. *)
Record ssc := mkSSC { ss_thrust : R; ss_ddelta : R }.
Definition spaceship_thrust (p : rpar) (x0 : st8) (u : ssc) : R :=
  if leb (r_m x0) (rp_mv p) then 0 else apply_force_limits (ss_thrust u) (rp_Flo p) (rp_Fhi p).
Definition spaceship_dynamics (p : rpar) (Iz l_r : R) (x0 : st8) (u : ssc) : st8 :=
  let thrust := spaceship_thrust p x0 u in
  let ddelta := apply_full_ang_vel_limits (r_ang x0) (ss_ddelta u) (rp_lo p) (rp_hi p) (rp_dlo p) (rp_dhi p) in
  let costh := cos (r_psi x0) in
  let sinth := sin (r_psi x0) in
  let cosdelta := cos (r_ang x0) in
  let sindelta := sin (r_ang x0) in
  mk8 (r_vx x0 * costh - r_vy x0 * sinth) (r_vx x0 * sinth + r_vy x0 * costh) (r_dpsi x0)
      (1 / r_m x0 * cosdelta * thrust + r_dpsi x0 * r_vy x0)
      (1 / r_m x0 * sindelta * thrust - r_dpsi x0 * r_vx x0)
      (- (1) / Iz * l_r * sindelta * thrust)
      ddelta (- rp_CT p * thrust).
(** SpaceshipParameters.default, spaceship_structures.py:185-204. *)
Definition sp_default := mkRP 2 (1 / 100) (-2) 2 (- (60 * PI / 180)) (60 * PI / 180) (- (45 * PI / 180)) (45 * PI / 180).

(** *** update *)

(** A model as seen by update: the states [X] and commands [U] with the operations of
    numpy arrays, the zero command, and the dynamics as a function of has_collided, the
    state of the model at the beginning of update, the current state and the commands;
    [p_ignore] tells whether the commands are replaced by zero.
    Used for [update], vehicle.py:163-195; [vehicle_plant], vehicle.py:169-178. *)
Record plant (X U : Type) := mkPlant {
  p_addX : X -> X -> X; p_scaleX : R -> X -> X; p_addU : U -> U -> U; p_scaleU : R -> U -> U; p_zero : U;
  p_dynamics : bool -> X -> X -> U -> option X; p_ignore : bool -> bool }.
Arguments p_addX {X U}. Arguments p_scaleX {X U}. Arguments p_addU {X U}. Arguments p_scaleU {X U}. Arguments p_zero {X U}. Arguments p_dynamics {X U}. Arguments p_ignore {X U}.

(** scipy.integrate.solve_ivp on the array of states and commands: any explicit
    Runge-Kutta method (rows of coefficients and weights) with any sequence of steps.
    RK45 with the steps it chooses is an instance; the choice is not modelled.
    Used for [update], vehicle.py:163-195. *)
Section RungeKutta.
Context {Y : Type} (add : Y -> Y -> Y) (scale : R -> Y -> Y) (f : Y -> option Y).
Definition rk_comb (y : Y) (h : R) (cs : list R) (ks : list Y) : Y := fold_left (fun acc ck => add acc (scale (h * fst ck) (snd ck))) (combine cs ks) y.
Fixpoint rk_stages (y : Y) (h : R) (rows : list (list R)) (ks : list Y) : option (list Y) :=
  match rows with
  | [] => Some ks
  | r :: rs => match f (rk_comb y h r ks) with Some k => rk_stages y h rs (ks ++ [k]) | None => None end
  end.
Definition rk_step (tab : list (list R) * list R) (y : Y) (h : R) : option Y :=
  match rk_stages y h (fst tab) [] with Some ks => Some (rk_comb y h (snd tab) ks) | None => None end.
Fixpoint rk_solve (tab : list (list R) * list R) (y : Y) (hs : list R) : option Y :=
  match hs with [] => Some y | h :: r => match rk_step tab y h with Some y' => rk_solve tab y' r | None => None end end.
End RungeKutta.

(** update of every model: vehicle.py:163-195, pedestrian.py:171-204,
    diff_drive.py:123-153, spacecraft.py:151-184, obstacles_dyn.py:156-187,
    rocket.py:171-205, spaceship.py:168-201; [hs] the steps of the integration. *)
Definition update {X U} (P : plant X U) (tab : list (list R) * list R) (collided : bool) (st : X) (u : U) (hs : list R) : option X :=
  let fn := fun y : X * U =>
    let actions := if p_ignore P collided then p_zero P else snd y in
    match p_dynamics P collided st (fst y) actions with
    | Some dx => Some (dx, p_scaleU P 0 (snd y))   (* np.zeros *)
    | None => None
    end in
  match rk_solve (fun a b => (p_addX P (fst a) (fst b), p_addU P (snd a) (snd b))) (fun k a => (p_scaleX P k (fst a), p_scaleU P k (snd a))) fn tab (st, u) hs with
  | Some y => Some (fst y)
  | None => None
  end.
(** A sequence of updates.  Calls of update, vehicle.py:163-195, one after the other. *)
Fixpoint updates {X U} (P : plant X U) (tab : list (list R) * list R) (collided : bool) (st : X) (l : list (U * list R)) : option X :=
  match l with [] => Some st | (u, hs) :: r => match update P tab collided st u hs with Some st' => updates P tab collided st' r | None => None end end.

(** Used for [vehicle_plant], vehicle.py:169-178; [pedestrian_plant], pedestrian.py:177-187; [spacecraft_plant], spacecraft.py:157-167. *)
Definition vst_add a b := mkV (v_x a + v_x b) (v_y a + v_y b) (v_psi a + v_psi b) (v_vx a + v_vx b) (v_delta a + v_delta b).
Definition vst_scale k a := mkV (k * v_x a) (k * v_y a) (k * v_psi a) (k * v_vx a) (k * v_delta a).
Definition dst_add a b := mkD (d_x a + d_x b) (d_y a + d_y b) (d_psi a + d_psi b) (d_vx a + d_vx b) (d_vy a + d_vy b) (d_dpsi a + d_dpsi b) (d_delta a + d_delta b).
Definition dst_scale k a := mkD (k * d_x a) (k * d_y a) (k * d_psi a) (k * d_vx a) (k * d_vy a) (k * d_dpsi a) (k * d_delta a).
Definition st6_add a b := mk6 (s_x a + s_x b) (s_y a + s_y b) (s_psi a + s_psi b) (s_vx a + s_vx b) (s_vy a + s_vy b) (s_dpsi a + s_dpsi b).
Definition st6_scale k a := mk6 (k * s_x a) (k * s_y a) (k * s_psi a) (k * s_vx a) (k * s_vy a) (k * s_dpsi a).
Definition st8_add a b := mk8 (r_x a + r_x b) (r_y a + r_y b) (r_psi a + r_psi b) (r_vx a + r_vx b) (r_vy a + r_vy b) (r_dpsi a + r_dpsi b) (r_ang a + r_ang b) (r_m a + r_m b).
Definition st8_scale k a := mk8 (k * r_x a) (k * r_y a) (k * r_psi a) (k * r_vx a) (k * r_vy a) (k * r_dpsi a) (k * r_ang a) (k * r_m a).
Definition st3_add a b := mk3 (w_x a + w_x b) (w_y a + w_y b) (w_psi a + w_psi b).
Definition st3_scale k a := mk3 (k * w_x a) (k * w_y a) (k * w_psi a).
Definition vcm_add a b := mkVCm (c_acc a + c_acc b) (c_ddelta a + c_ddelta b).
Definition vcm_scale k a := mkVCm (k * c_acc a) (k * c_ddelta a).

(** VehicleModel: the commands of a collided vehicle are ignored unless it is a car,
    vehicle.py:169-178. *)
Definition vehicle_plant (g : vgeo) (p : vpar) : plant vst vcm :=
  mkPlant _ _ vst_add vst_scale vcm_add vcm_scale (mkVCm 0 0) (fun _ _ x u => Some (vehicle_dynamics g p x u)) (fun collided => collided && negb (vtype_eqb (vg_type g) CAR)).
(** VehicleModelDyn inherits update.  vehicle_dynamic.py:74-241, vehicle.py:163-195. *)
Definition vehicle_dyn_plant (g : vgeo) (p : vpar) (pf pr : pacejka) : plant dst vcm :=
  mkPlant _ _ dst_add dst_scale vcm_add vcm_scale (mkVCm 0 0) (vehicle_dyn_dynamics g p pf pr) (fun collided => collided && negb (vtype_eqb (vg_type g) CAR)).
(** pedestrian.py:177-187. *)
Definition pedestrian_plant (p : ppar) : plant st6 pcm :=
  mkPlant _ _ st6_add st6_scale (fun a b => mkPC (pc_acc a + pc_acc b) (pc_dpsi a + pc_dpsi b)) (fun k a => mkPC (k * pc_acc a) (k * pc_dpsi a)) (mkPC 0 0) (fun c self x u => Some (pedestrian_dynamics p c self x u)) (fun collided => collided).
(** diff_drive.py:129-136. *)
Definition diff_drive_plant (wb wr lo hi : R) : plant st3 wcm :=
  mkPlant _ _ st3_add st3_scale (fun a b => mkWC (wc_l a + wc_l b) (wc_r a + wc_r b)) (fun k a => mkWC (k * wc_l a) (k * wc_r a)) (mkWC 0 0) (fun _ _ x u => Some (diff_drive_dynamics wb wr lo hi x u)) (fun collided => collided).
(** spacecraft.py:157-167. *)
Definition spacecraft_plant (p : mparams) (lo hi w m Iz : R) : plant st6 scm :=
  mkPlant _ _ st6_add st6_scale (fun a b => mkSC (sc_l a + sc_l b) (sc_r a + sc_r b)) (fun k a => mkSC (k * sc_l a) (k * sc_r a)) (mkSC 0 0) (fun _ _ x u => Some (spacecraft_dynamics p lo hi w m Iz x u)) (fun collided => collided).
(** obstacles_dyn.py:162-170: has_collided is not looked at. *)
Definition obstacle_plant (p : mparams) (lo hi : R) : plant st6 ocm :=
  mkPlant _ _ st6_add st6_scale (fun a b => mkOC (oc_x a + oc_x b) (oc_y a + oc_y b) (oc_psi a + oc_psi b)) (fun k a => mkOC (k * oc_x a) (k * oc_y a) (k * oc_psi a)) (mkOC 0 0 0) (fun _ _ x u => Some (obstacle_dynamics p lo hi x u)) (fun _ => false).
(** rocket.py:177-188. *)
Definition rocket_plant (p : rpar) (Iz l_m : R) : plant st8 rcm :=
  mkPlant _ _ st8_add st8_scale (fun a b => mkRC (rc_l a + rc_l b) (rc_r a + rc_r b) (rc_dphi a + rc_dphi b)) (fun k a => mkRC (k * rc_l a) (k * rc_r a) (k * rc_dphi a)) (mkRC 0 0 0) (fun _ _ x u => Some (rocket_dynamics p Iz l_m x u)) (fun collided => collided).
(** spaceship.py:174-184. *)
Definition spaceship_plant (p : rpar) (Iz l_r : R) : plant st8 ssc :=
  mkPlant _ _ st8_add st8_scale (fun a b => mkSSC (ss_thrust a + ss_thrust b) (ss_ddelta a + ss_ddelta b)) (fun k a => mkSSC (k * ss_thrust a) (k * ss_ddelta a)) (mkSSC 0 0) (fun _ _ x u => Some (spaceship_dynamics p Iz l_r x u)) (fun collided => collided).
