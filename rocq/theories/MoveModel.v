(** Model of the methods of Trajectory that deal with poses
    (src/dg_commons/planning/trajectory.py) and of BicycleDynamics
    (src/dg_commons/dynamics/bicycle_dynamic.py) over the reals. *)
From Coq Require Import Reals QArith Qreals Qcanon List Bool.
From Verif Require Import Base Num R2 SeqModel GeoModel DataModel DynModel.
Import ListNotations.
Open Scope R_scope.

(** The class of an object that holds samples: methods of Trajectory are missing
    from a plain DgSampledSequence.
    Used for [as_path], trajectory.py:24-26; [apply_SE2transform], trajectory.py:28-36. *)
Inductive pycls := cTrajectory | cSampledSequence.
Record samples := mkSamples { sm_cls : pycls; sm_seq : seq vst }.
(** Looking up a method of Trajectory.
    Used for [as_path], trajectory.py:24-26; [apply_SE2transform], trajectory.py:28-36. *)
Definition trajectory_method {A} (o : samples) (k : seq vst -> result A) : result A :=
  match sm_cls o with cTrajectory => k (sm_seq o) | cSampledSequence => Err PyAttributeError end.

(** as_path, trajectory.py:24-26. *)
Definition as_path (o : samples) : result (list SE2Transform) :=
  trajectory_method o (fun s => Ok (map (fun x => mkSE2T (v_x x, v_y x) (v_psi x)) (vals s))).

(** extract_pose_from_state, sim/models/utils.py:27-37, for states with a psi. *)
Definition pose_of_vst (x : vst) : mat := SE2_from_translation_angle (v_x x, v_y x) (v_psi x).
(** _applySE2, trajectory.py:29-33; xytheta_from_SE2 is PyGeometry's. *)
Definition apply_SE2_state (t : SE2Transform) (x : vst) : vst :=
  let new_pose := mmul (as_SE2 t) (pose_of_vst x) in
  let '(p, theta) := translation_angle_from_SE2 new_pose in
  mkV (fst p) (snd p) theta (v_vx x) (v_delta x).
(** apply_SE2transform, trajectory.py:28-36: transform_values returns a
    DgSampledSequence. *)
Definition apply_SE2transform (o : samples) (t : SE2Transform) : result samples :=
  trajectory_method o (fun s =>
    match transform_values (fun x => Some (apply_SE2_state t x)) s with
    | Ok s' => Ok (mkSamples cSampledSequence s')
    | Err e => Err e
    end).

(** VehicleState.__mul__ and __add__ with a scale that is a rational.
    vehicle.py:89-117. *)
Definition qc2r (k : Qc) : R := Q2R k.
Definition vst_mul (x : vst) (k : Qc) : vst := vst_scale (qc2r k) x.
(** at_interp on samples of VehicleState.  sequence.py:109-120. *)
Definition state_at (s : seq vst) (t : Qc) : result vst := at_interp vst_mul vst_add s t.

(** *** BicycleDynamics *)

(** dynamics, bicycle_dynamic.py:84-95. *)
Definition bicycle_dynamics (g : vgeo) (x0 : vst) (u : vcm) : vst :=
  let dx := v_vx x0 in
  let dtheta := dx * tan (v_delta x0) / vg_wheelbase g in
  let dy := dtheta * vg_lr g in
  let costh := cos (v_psi x0) in
  let sinth := sin (v_psi x0) in
  mkV (dx * costh - dy * sinth) (dx * sinth + dy * costh) dtheta (c_acc u) (c_ddelta u).

(** successor, bicycle_dynamic.py:36-52. *)
Definition successor (g : vgeo) (p : vpar) (x0 : vst) (u : vcm) (dt : R) : vst :=
  let acc := rclip (c_acc u) (mp_alo (vp_m p)) (mp_ahi (vp_m p)) in
  let ddelta := rclip (c_ddelta u) (- vp_ddmax p) (vp_ddmax p) in
  let x1 := vst_add x0 (vst_scale dt (bicycle_dynamics g x0 (mkVCm acc ddelta))) in
  mkV (v_x x1) (v_y x1) (v_psi x1) (rclip (v_vx x1) (mp_vlo (vp_m p)) (mp_vhi (vp_m p))) (rclip (v_delta x1) (- vp_dmax p) (vp_dmax p)).

(** successor_ivp, bicycle_dynamic.py:54-82: the integration of [update] without limits;
    [hs] the steps of the integration. *)
Definition bicycle_plant (g : vgeo) : plant vst vcm :=
  mkPlant _ _ vst_add vst_scale vcm_add vcm_scale (mkVCm 0 0) (fun _ _ x u => Some (bicycle_dynamics g x u)) (fun _ => false).
Definition successor_ivp (g : vgeo) (tab : list (list R) * list R) (x0 : vst) (u : vcm) (hs : list R) : result vst :=
  match update (bicycle_plant g) tab false x0 u hs with Some x => Ok x | None => Err PyRuntimeError end.
