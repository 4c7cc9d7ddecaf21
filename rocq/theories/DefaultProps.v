(* Generated from tools/Default.src by tools/gen_props.py. *)
(** What one gets when parameters are left out. *)
From Coq Require Import Reals Lra Psatz String List Bool ZArith QArith Qcanon Lia.
From Verif Require Import Base Num R2 VehState DictLemmas.
From Verif Require SeqModel SimulatorModel CtrlModel CtrlSpec CtrlMain PursuitModel PursuitSpec PursuitMain GeoModel GeoSpec GeoProofs DataModel DynModel DynProofs BuildModel BuildMain DrawModel DrawSpec DrawMain LaneModel PlanModel PlanSpec PlanMain.
Import ListNotations.
From Verif Require Import DefaultMain.

(** ** C133 *)

(** A lane follower's speed behaviour made without parameters: at most 40 km/h, and exactly that unless it has to yield, to stop or to follow; it yields to who comes from the right and stops for who comes from the left, closer than 7 m and faster than 5 km/h; it stops for oncoming traffic in its lane that would be reached within 1.5 s. *)
Theorem C133_speed_behaviour : forall (X F : Type) (K : CtrlModel.kin X) me (l : list (nat * (X * F))) ref em,
  NoDup (map fst l) -> CtrlModel.get_speed_ref K CtrlModel.sb_default me (Some l) = Ok (ref, em) ->
  exists mine fm v0, aget Nat.eqb l me = Some (mine, fm) /\ CtrlModel.vx_of K mine = Some v0 /\
    let others := CtrlSpec.other_agent K me l mine in
    let from_right r v := (CtrlModel.py_pi / qz 4 <= CtrlModel.rel_theta r /\ CtrlModel.rel_theta r <= CtrlModel.py_pi * qz 3 / qz 4 /\ qf 25 18 < v /\ CtrlSpec.near r (qz 7))%Qc in
    let from_left r v := (qz (-3) * CtrlModel.py_pi / qz 4 <= CtrlModel.rel_theta r /\ CtrlModel.rel_theta r <= - CtrlModel.py_pi / qz 4 /\ qf 25 18 < v /\ CtrlSpec.near r (qz 7))%Qc in
    let oncoming r v := (qz 3 * CtrlModel.py_pi / qz 4 <= qabs (CtrlModel.rel_theta r) /\ qabs (CtrlModel.rel_theta r) <= CtrlModel.py_pi * qz 5 / qz 4 /\
       0 < CtrlModel.rel_x r /\ qf (-6) 5 <= CtrlModel.rel_y r /\ CtrlModel.rel_y r <= qf 6 5 /\ CtrlSpec.near r (qf 3 2 * (v0 + v)))%Qc in
    let in_front r v := (qf 1 2 < CtrlModel.rel_x r /\ qf (-6) 5 <= CtrlModel.rel_y r /\ CtrlModel.rel_y r <= qf 6 5 /\
       - (CtrlModel.py_pi / qz 6) < CtrlModel.rel_theta r /\ CtrlModel.rel_theta r < CtrlModel.py_pi / qz 6 /\ CtrlSpec.near r (qf 3 2 * v0 + qmax (v0 - v) 0))%Qc in
    (em = true <-> exists r v, others r v /\ (from_left r v \/ oncoming r v)) /\
    (em = true -> ref = 0%Qc) /\ ((exists r v, others r v /\ from_right r v) -> ref = 0%Qc) /\ (ref <= qf 100 9)%Qc /\
    (em = false -> ~ (exists r v, others r v /\ (from_right r v \/ in_front r v)) -> ref = qf 100 9).
Proof. exact C133_speed_behaviour_pf. Qed.
Print Assumptions C133_speed_behaviour.

Example C133_speed_behaviour_ex : let K := CtrlModel.mkKin (fun _ _ : unit => Some (CtrlModel.mkRel (qz 10) 0 0)) (fun _ => Some (qz 1)) in
  CtrlModel.get_speed_ref K CtrlModel.sb_default 1%nat (Some [(1%nat, (tt, tt)); (2%nat, (tt, tt))]) = Ok (qf 100 9, false).
Proof. cbv zeta. vm_compute. f_equal. f_equal. apply Qc_is_canon. vm_compute. reflexivity. Qed.

(** The controllers made from a vehicle's limits.  The speed controller asks for the acceleration 4 e + i + e'/10, i growing with e/100 but staying within 2 of 0; the steering controller for the rate 4 e + i + e'/5, i growing with e/10 but staying within 1/2; both within the limits of the vehicle. *)
Theorem C133_controllers : forall vp c0 h c outs t c' y, CtrlSpec.after (CtrlModel.pid_p c0) h c outs -> CtrlModel.get_control c t = (c', y) ->
  let e := (CtrlModel.reference c - CtrlModel.measurement c)%Qc in
  let since x := match CtrlModel.last_at c with None => 0%Qc | Some t0 => x t0 end in
  (CtrlModel.speed_controller vp = Ok c0 ->
    CtrlSpec.saturated (vp_acc_lo vp, vp_acc_hi vp) (qz 4 * e + CtrlModel.last_i c' + since (fun t0 => if qeqb t t0 then 0 else (e - CtrlModel.last_p c) / (t - t0) / qz 10)) y /\
    CtrlSpec.saturated (qz (-2), qz 2) (CtrlModel.last_i c + since (fun t0 => e * (t - t0) / qz 100)) (CtrlModel.last_i c'))%Qc /\
  (CtrlModel.steer_controller vp = Ok c0 ->
    CtrlSpec.saturated (- vp_ddelta_max vp, vp_ddelta_max vp) (qz 4 * e + CtrlModel.last_i c' + since (fun t0 => if qeqb t t0 then 0 else (e - CtrlModel.last_p c) / (t - t0) / qz 5)) y /\
    CtrlSpec.saturated (- (1 / qz 2), 1 / qz 2) (CtrlModel.last_i c + since (fun t0 => e * (t - t0) / qz 10)) (CtrlModel.last_i c'))%Qc.
Proof. exact C133_controllers_pf. Qed.
Print Assumptions C133_controllers.

Example C133_controllers_ex : exists c1 c2, CtrlModel.speed_controller vp_car = Ok c1 /\ CtrlModel.steer_controller vp_car = Ok c2 /\
  snd (CtrlModel.get_control (CtrlModel.update_reference c1 (qz 1)) 0) = qz 4 /\ snd (CtrlModel.get_control (CtrlModel.update_reference c2 (qf 1 10)) 0) = qf 2 5.
Proof.
  eexists _, _. split; [reflexivity|]. split; [reflexivity|]. split; apply Qc_is_canon; vm_compute; reflexivity.
Qed.

(** Pure pursuit made without parameters looks ahead 0.8 s, at least 3 m and at most 30 m, at the points of the path from 2 m further along, and steers a vehicle with 3.5 m between its axles whose rear axle is halfway behind its position. *)
Theorem C133_pure_pursuit : forall minimize c path p theta along delta, PursuitSpec.within_bounds minimize -> PursuitSpec.ready c path p theta along -> PursuitModel.pu_param c = PursuitModel.pp_default ->
  PursuitModel.get_desired_steering minimize c = Ok delta ->
  (let L := PursuitModel.get_lookahead c in
   L = Rmin (Rmax (4 / 5 * PursuitModel.pu_speed c) 3) 30 /\
   exists s goal, along + 2 <= s <= along + 2 + L /\ goal = GeoModel.translation_from_SE2 (path s) /\
     let rear := PursuitSpec.rear_of p theta (7 / 4) in
     exists sin_alpha, vdist goal rear * sin_alpha = PursuitSpec.leftward rear theta goal /\ -1 <= sin_alpha <= 1 /\ - (PI / 2) < delta < PI / 2 /\
       L * tan delta = 7 / 2 * (2 * sin_alpha + 1 / 10 ^ 9))%R.
Proof. exact C133_pure_pursuit_pf. Qed.
Print Assumptions C133_pure_pursuit.

Example C133_pure_pursuit_ex : exists c path delta, PursuitSpec.ready c path (0, 0)%R 0%R 0%R /\ PursuitModel.pu_param c = PursuitModel.pp_default /\ PursuitModel.get_desired_steering (fun _ lo _ => lo) c = Ok delta /\ PursuitSpec.within_bounds (fun _ lo _ => lo).
Proof.
  set (path := fun s : R => GeoModel.SE2_from_translation_angle (s, 4%R) 0%R).
  set (c := PursuitModel.update_pose (PursuitModel.update_path (PursuitModel.pu_new PursuitModel.pp_default) path) (GeoModel.SE2_from_translation_angle (0, 0)%R 0%R) 0%R). exists c, path.
  assert (GL : PursuitModel.get_lookahead c = 3%R). { unfold PursuitModel.get_lookahead, c. cbn. unfold Rmin, Rmax. destruct (Rle_dec _ _); destruct (Rle_dec _ _); lra. }
  assert (Rd : PursuitSpec.ready c path (0, 0)%R 0%R 0%R) by (eexists; split; [reflexivity|split; [reflexivity|apply GeoProofs.pose_at_iff; reflexivity]]).
  destruct (proj2 (PursuitMain.C38_defined_pf (fun _ lo _ => lo) c path (0, 0)%R 0%R 0%R Rd ltac:(lra) ltac:(intros E; apply (f_equal snd) in E; unfold PursuitSpec.rear_of, vsub, vscale in E; cbn in E; rewrite sin_0 in E; lra))) as [delta E].
  - cbn. unfold PursuitSpec.leftward, PursuitSpec.rear_of, GeoModel.translation_from_SE2, vcross, vsub, vscale. cbn. rewrite cos_0, sin_0. match goal with |- (?a <> _ * ?b)%R => assert (0 <= b)%R by apply vnorm_nonneg end. unfold PursuitModel.pp_eps. nra.
  - exists delta. split; [exact Rd|]. split; [reflexivity|]. split; [exact E|]. intros f lo hi Hl. lra.
Qed.

(** States made without lateral speed and yaw rate have 0 for both; commands made without lights have none on. *)
Theorem C133_states : forall x y psi vx delta acc ddelta,
  (exists s, DataModel.construct DataModel.cVehicleStateDyn [("x", DataModel.Num x); ("y", DataModel.Num y); ("psi", DataModel.Num psi); ("vx", DataModel.Num vx); ("delta", DataModel.Num delta)]%string = Ok s /\
     DataModel.getattr s "vy" = Ok (DataModel.Num 0) /\ DataModel.getattr s "dpsi" = Ok (DataModel.Num 0) /\ DataModel.getattr s "delta" = Ok (DataModel.Num delta)) /\
  (exists s, DataModel.construct DataModel.cPedestrianState [("x", DataModel.Num x); ("y", DataModel.Num y); ("psi", DataModel.Num psi); ("vx", DataModel.Num vx)]%string = Ok s /\
     DataModel.getattr s "vy" = Ok (DataModel.Num 0) /\ DataModel.getattr s "dpsi" = Ok (DataModel.Num 0) /\ DataModel.getattr s "vx" = Ok (DataModel.Num vx)) /\
  (exists s, DataModel.construct DataModel.cVehicleCommands [("acc", DataModel.Num acc); ("ddelta", DataModel.Num ddelta)]%string = Ok s /\ DataModel.getattr s "lights" = Ok (DataModel.Lights "none")) /\
  (DataModel.construct DataModel.cVehicleState [("x", DataModel.Num x); ("y", DataModel.Num y); ("psi", DataModel.Num psi); ("vx", DataModel.Num vx)]%string = Err PyTypeError).
Proof. exact C133_states_pf. Qed.
Print Assumptions C133_states.

Local Open Scope R_scope.

(** The default tyres: friction coefficient for a given slip. *)
Theorem C133_tyres : forall cls s,
  let mu t := DynModel.pac_evaluate (t cls) s in
  mu DynModel.default_car_front = 9 / 10 * sin (19 / 10 * atan (10 * s)) /\ mu DynModel.default_car_rear = sin (19 / 10 * atan (11 * s)) /\
  mu DynModel.default_truck_front = 9 / 10 * sin (19 / 10 * atan (10 * s)) /\ mu DynModel.default_truck_rear = sin (19 / 10 * atan (11 * s)) /\
  mu DynModel.default_bicycle_front = 4 / 5 * sin (23 / 10 * atan (12 * s)) /\ mu DynModel.default_bicycle_rear = sin (2 * atan (12 * s)).
Proof. exact C133_tyres_pf. Qed.
Print Assumptions C133_tyres.

(** A pedestrian made without parameters walks at -5 to 20 km/h, accelerates at -3 to 5 m/s2 and turns at up to half a turn a second. *)
Theorem C133_pedestrian : forall c self x u, let d := DynModel.pedestrian_dynamics DynModel.pp_default c self x u in
  - PI <= DynModel.s_psi d <= PI /\
  (c = false -> -3 <= DynModel.s_vx d <= 5 /\ (50 / 9 <= DynModel.s_vx x -> DynModel.s_vx d <= 0) /\ (DynModel.s_vx x <= - (25 / 18) -> 0 <= DynModel.s_vx d) /\
     (- (25 / 18) < DynModel.s_vx x < 50 / 9 -> -3 <= DynModel.pc_acc u <= 5 -> DynModel.s_vx d = DynModel.pc_acc u) /\ (- PI <= DynModel.pc_dpsi u <= PI -> DynModel.s_psi d = DynModel.pc_dpsi u)).
Proof. exact C133_pedestrian_pf. Qed.
Print Assumptions C133_pedestrian.

Example C133_pedestrian_ex : DynModel.s_vx (DynModel.pedestrian_dynamics DynModel.pp_default false (DynModel.mk6 0 0 0 1 0 0) (DynModel.mk6 0 0 0 1 0 0) (DynModel.mkPC 2 0)) = 2.
Proof. apply (C133_pedestrian false); [reflexivity|cbn; lra|cbn; lra]. Qed.

(** The default rocket is 0.9 m long and 0.4 m wide, its position 0.3 m from its back; the default spaceship 2.3 m and 0.8 m, its position 1 m from its back.  Their full flames are half a metre long. *)
Theorem C133_craft : forall union, DrawSpec.right_union union ->
  DrawSpec.bounding_box (DrawModel.rocket_outline union DrawModel.rocket_default0) (- (3 / 10)) (6 / 10) (- (2 / 10)) (2 / 10) /\
  DrawSpec.bounding_box (DrawModel.spaceship_outline union DrawModel.spaceship_default0) (- 1) (13 / 10) (- (4 / 10)) (4 / 10) /\
  DrawModel.rg_l DrawModel.rocket_default0 = 9 / 10 /\ DrawModel.spaceship_l DrawModel.spaceship_default0 = 23 / 10 /\
  DrawModel.flame_outline (DrawModel.rg_w_t_half DrawModel.rocket_default0) (DrawModel.rg_l_t_half DrawModel.rocket_default0) (DrawModel.rg_F_max DrawModel.rocket_default0) 2 = [(2 / 10, - (1 / 100)); (7 / 10, 0); (2 / 10, 1 / 100); (2 / 10, - (1 / 100))] /\
  DrawModel.flame_outline (DrawModel.hg_w_t_half DrawModel.spaceship_default0) (DrawModel.hg_l_t_half DrawModel.spaceship_default0) (DrawModel.hg_F_max DrawModel.spaceship_default0) 3 = [(3 / 10, - (5 / 100)); (8 / 10, 0); (3 / 10, 5 / 100); (3 / 10, - (5 / 100))].
Proof. exact C133_craft_pf. Qed.
Print Assumptions C133_craft.

(** The identity transform moves nothing; and the pose relative to any invertible base (not only a rotation) is the one that, seen from the base, gives the pose back. *)
Theorem C133_identity :
  (forall q, GeoModel.mmul (GeoModel.as_SE2 GeoModel.t_identity) q = q /\ GeoModel.mmul q (GeoModel.as_SE2 GeoModel.t_identity) = q) /\
  (forall p, GeoModel.SE2_apply_T2 (GeoModel.as_SE2 GeoModel.t_identity) p = p) /\
  (forall base pose, GeoModel.m00 base * GeoModel.m11 base <> GeoModel.m01 base * GeoModel.m10 base -> exists rel, GeoModel.relative_pose base pose = Ok rel /\ GeoModel.mmul base rel = pose).
Proof. exact C133_identity_pf. Qed.
Print Assumptions C133_identity.

Example C133_identity_ex : GeoModel.m00 (GeoModel.mkM 2 0 0 0 1 0) * GeoModel.m11 (GeoModel.mkM 2 0 0 0 1 0) <> GeoModel.m01 (GeoModel.mkM 2 0 0 0 1 0) * GeoModel.m10 (GeoModel.mkM 2 0 0 0 1 0).
Proof. cbn. lra. Qed.

(** The closest point of a lane, asked for without an interval: the minimiser is started on the parameters of the whole lane, from 0 to the last one (fast variant), or one step longer at both ends. *)
Theorem C133_lane_search : forall minimize cps p tol, let n := INR (length cps) in
  LaneModel.find_along_lane_closest_point_fast minimize cps p tol None = LaneModel.find_along_lane_closest_point_fast minimize cps p tol (Some (0, n - 1)) /\
  LaneModel.find_along_lane_closest_point minimize cps p tol None = LaneModel.find_along_lane_closest_point minimize cps p tol (Some (-1, n)).
Proof. exact C133_lane_search_pf. Qed.
Print Assumptions C133_lane_search.

(** A sampler made from a vehicle's limits samples (contrary to its name) the speed limits as accelerations and the steering angles as rates, from one limit to the other. *)
Theorem C133_sampler : forall dt na nr vp p f s x0 trs, PlanModel.sampler_from_vehicle dt 1 na nr vp = Ok p -> PlanModel.new_sampler p f vp = Ok s -> (0 < dt)%Qc -> PlanModel.cs_generate s x0 = Ok trs ->
  length trs = (Z.to_nat na * Z.to_nat nr)%nat /\
  (forall t, In t trs -> exists c x1, PlanSpec.on_grid (vp_vx_lo vp, vp_vx_hi vp, na) (vc_acc c) /\ PlanSpec.on_grid (- vp_delta_max vp, vp_delta_max vp, nr)%Qc (vc_ddelta c) /\
     f x0 c dt = Ok x1 /\ SeqModel.iter t = [(0%Qc, x0); (dt, x1)]) /\
  (forall c, PlanSpec.on_grid (vp_vx_lo vp, vp_vx_hi vp, na) (vc_acc c) -> PlanSpec.on_grid (- vp_delta_max vp, vp_delta_max vp, nr)%Qc (vc_ddelta c) -> exists t x1, In t trs /\ f x0 c dt = Ok x1 /\ SeqModel.iter t = [(0%Qc, x0); (dt, x1)]).
Proof. exact C133_sampler_pf. Qed.
Print Assumptions C133_sampler.

(** The code's own plots when no figure is open: one new figure with one plot that fills it, in which the curve is the only one; a figure that is open and has plots gets the curve in its last one. *)
Theorem C133_plots : forall T V (cu : DrawModel.curve T V) figs,
  (forall f, f = S (fold_right Nat.max 0%nat (akeys figs)) ->
     DrawModel.axes_of T V (DrawModel.plt_plot T V cu (DrawModel.mkPyplot T V figs None)) f = [DrawModel.mkAxes T V 1 1 [cu]]) /\
  (forall f l r i cs, aget Nat.eqb figs f = Some (l ++ [DrawModel.mkAxes T V r i cs]) ->
     DrawModel.axes_of T V (DrawModel.plt_plot T V cu (DrawModel.mkPyplot T V figs (Some f))) f = l ++ [DrawModel.mkAxes T V r i (cs ++ [cu])]).
Proof. exact C133_plots_pf. Qed.
Print Assumptions C133_plots.

Example C133_plots_ex : DrawModel.axes_of nat nat (DrawModel.plt_plot nat nat (DrawModel.mkCurve nat nat "a" [(0, 1)]%nat true) (DrawModel.mkPyplot nat nat [] None)) 1 = [DrawModel.mkAxes nat nat 1 1 [DrawModel.mkCurve nat nat "a" [(0, 1)]%nat true]].
Proof. apply (proj1 (C133_plots nat nat _ _)). reflexivity. Qed.

(** A vehicle slow and agile enough to be sampled: speeds up to 1, turning up to 1/2 at a rate of up to 1. *)
Example C133_sampler_ex : exists p s trs, PlanModel.sampler_from_vehicle (qf 1 2) 1 2 2 (mkVP (qz (-1)) (qz 1) (qz (-2)) (qz 2) (qf 1 2) (qz 1)) = Ok p /\
  PlanModel.new_sampler p (fun x c dt => Ok x) (mkVP (qz (-1)) (qz 1) (qz (-2)) (qz 2) (qf 1 2) (qz 1)) = Ok s /\ PlanModel.cs_generate s (mkVS 0 0 0 0 0)%Qc = Ok trs /\ length trs = 4%nat.
Proof. eexists _, _, _. split; [reflexivity|]. split; [reflexivity|]. split; reflexivity. Qed.
