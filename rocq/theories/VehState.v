(** VehicleState and VehicleCommands, src/dg_commons/sim/models/vehicle.py:22-138. *)
From Coq Require Import QArith Qcanon ZArith List Bool.
From Verif Require Import Base Num.
Import ListNotations.
Open Scope Qc_scope.

(** VehicleState, vehicle.py:68-83. *)
Record vstate := mkVS { vs_x : Qc; vs_y : Qc; vs_psi : Qc; vs_vx : Qc; vs_delta : Qc }.

(** VehicleState.__add__, vehicle.py:89-100 (both operands VehicleStates). *)
Definition vs_add (a b : vstate) : vstate :=
  mkVS (vs_x a + vs_x b) (vs_y a + vs_y b) (vs_psi a + vs_psi b) (vs_vx a + vs_vx b)
       (vs_delta a + vs_delta b).

(** VehicleState.__mul__, vehicle.py:107-115. *)
Definition vs_mul (a : vstate) (c : Qc) : vstate :=
  mkVS (vs_x a * c) (vs_y a * c) (vs_psi a * c) (vs_vx a * c) (vs_delta a * c).

(** VehicleState.__sub__, vehicle.py:104-105. *)
Definition vs_sub (a b : vstate) : vstate := vs_add a (vs_mul b (- (1))).

(** Dataclass equality (vehicle.py:68, eq=True). *)
Definition vs_eqb (a b : vstate) : bool :=
  qeqb (vs_x a) (vs_x b) && qeqb (vs_y a) (vs_y b) && qeqb (vs_psi a) (vs_psi b) &&
  qeqb (vs_vx a) (vs_vx b) && qeqb (vs_delta a) (vs_delta b).

(** VehicleCommands, vehicle.py:22-31, without the lights field. *)
Record vcmd := mkVC { vc_acc : Qc; vc_ddelta : Qc }.

(** VehicleParameters, vehicle_utils.py:9-13, ModelParameters,
    model_structures.py:74-79. *)
Record vparams := mkVP
  { vp_vx_lo : Qc; vp_vx_hi : Qc; vp_acc_lo : Qc; vp_acc_hi : Qc;
    vp_delta_max : Qc; vp_ddelta_max : Qc }.

(** The assertions of VehicleParameters.__post_init__, vehicle_utils.py:28-31,
    and ModelParameters.__post_init__, model_structures.py:81-83. *)
Definition vparams_ok (p : vparams) : bool :=
  qltb (vp_vx_lo p) (vp_vx_hi p) && qltb (vp_acc_lo p) (vp_acc_hi p) &&
  qltb 0 (vp_delta_max p) && qltb 0 (vp_ddelta_max p).

(** kmh2ms, models/utils.py: [val / 3.6]. *)
Definition kmh2ms (v : Qc) : Qc := v / qf 36 10.

(** default_car / default_truck / default_bicycle, vehicle_utils.py:15-26. *)
Definition vp_car : vparams := mkVP (kmh2ms (qz (-10))) (kmh2ms (qz 130)) (qz (-8)) (qz 5) 1 (qf 1 2).
Definition vp_truck : vparams := mkVP (kmh2ms (qz (-10))) (kmh2ms (qz 90)) (qz (-6)) (qf 7 2) 1 (qf 1 2).
Definition vp_bicycle : vparams := mkVP (kmh2ms (qz (-1))) (kmh2ms (qz 50)) (qz (-4)) (qz 3) 1 (qf 1 2).
