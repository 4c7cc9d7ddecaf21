(** Model of src/dg_commons/controllers/pid.py, speed.py and steer.py. *)
From Coq Require Import QArith Qcanon ZArith List Bool Arith.
From Verif Require Import Base Num SeqModel SimulatorModel VehState.
Import ListNotations.
Open Scope Qc_scope.

(** ** pid.py *)

(** PIDParam, pid.py:9-21; the pairs are (min, max). *)
Record pid_param := mkPP { kP : Qc; kI : Qc; kD : Qc; antiwindup : Qc * Qc; setpoint : Qc * Qc; outlim : Qc * Qc }.

(** PIDParam(...): __post_init__, pid.py:18-21. *)
Definition pid_param_new (p : pid_param) : result pid_param :=
  if qltb (fst (antiwindup p)) (snd (antiwindup p)) then
    if qltb (fst (setpoint p)) (snd (setpoint p)) then
      if qltb (fst (outlim p)) (snd (outlim p)) then Ok p else Err PyAssertionError
    else Err PyAssertionError
  else Err PyAssertionError.

(** PID.__init__, pid.py:27-33. *)
Record pid := mkPid
  { pid_p : pid_param; measurement : Qc; reference : Qc; last_at : option Qc; last_i : Qc; last_p : Qc }.
Definition pid_new (p : pid_param) : pid := mkPid p 0 0 None 0 0.

(** update_measurement, pid.py:35-36. *)
Definition update_measurement (c : pid) (m : Qc) : pid :=
  mkPid (pid_p c) m (reference c) (last_at c) (last_i c) (last_p c).

(** update_reference, pid.py:38-41. *)
Definition update_reference (c : pid) (r : Qc) : pid :=
  mkPid (pid_p c) (measurement c) (qclip r (fst (setpoint (pid_p c))) (snd (setpoint (pid_p c))))
        (last_at c) (last_i c) (last_p c).

(** get_control, pid.py:43-57. *)
Definition get_control (c : pid) (at_ : Qc) : pid * Qc :=
  let p := pid_p c in
  let dt := match last_at c with None => 0 | Some t => at_ - t end in
  let p_error := reference c - measurement c in
  let i := qclip (last_i c + kI p * p_error * dt) (fst (antiwindup p)) (snd (antiwindup p)) in
  let d_error := if negb (qeqb dt 0) then (p_error - last_p c) / dt else 0 in
  let output := kP p * p_error + i + kD p * d_error in
  (mkPid p (measurement c) (reference c) (Some at_) i p_error, qclip output (fst (outlim p)) (snd (outlim p))).

(** ** speed.py:16-42, steer.py:9-41 *)

(** SpeedController.from_vehicle_params, speed.py:39-42. *)
Definition speed_controller (vp : vparams) : result pid :=
  match pid_param_new (mkPP (qz 4) (qf 1 100) (qf 1 10) (qz (-2), qz 2)
                         (vp_vx_lo vp, vp_vx_hi vp) (vp_acc_lo vp, vp_acc_hi vp)) with
  | Err e => Err e
  | Ok p => Ok (pid_new p)
  end.

(** SteerController.from_vehicle_params, steer.py:35-41. *)
Definition steer_controller (vp : vparams) : result pid :=
  match pid_param_new (mkPP (qz 4) (qf 1 10) (qf 2 10) (qf (-1) 2, qf 1 2)
                         (- vp_delta_max vp, vp_delta_max vp) (- vp_ddelta_max vp, vp_ddelta_max vp)) with
  | Err e => Err e
  | Ok p => Ok (pid_new p)
  end.

(** ** SpeedBehavior, speed.py:45-156 *)

(** SpeedBehaviorParam, speed.py:45-54. *)
Record sb_param := mkSB { nominal_speed : Qc; yield_distance : Qc; minimum_yield_vel : Qc; safety_time : Qc }.
Definition sb_default : sb_param := mkSB (kmh2ms (qz 40)) (qz 7) (kmh2ms (qz 5)) (qf 3 2).

(** A pose relative to the observer's: position and heading.
    Used for [kin], speed.py:76-82. *)
Record rel_pose := mkRel { rel_x : Qc; rel_y : Qc; rel_theta : Qc }.

(** Attributes of the states: the pose of the second state relative to the
    first, speed.py:76-82 ([None]: no pose can be extracted), and [.vx]. *)
Record kin (X : Type) := mkKin { relative : X -> X -> option rel_pose; vx_of : X -> option Qc }.
Arguments mkKin {X}. Arguments relative {X}. Arguments vx_of {X}.

(** math.pi: the IEEE double.
    Used for [anyone_to_yield_to], speed.py:91-108; [emergency_needed], speed.py:110-127. *)
Definition py_pi : Qc := qf 884279719003555 281474976710656.

(** [numpy.linalg.norm(rel.p) < d], without square roots.
    Used for [anyone_to_yield_to], speed.py:91-108; [emergency_needed], speed.py:110-127. *)
Definition nearer (r : rel_pose) (d : Qc) : bool :=
  qltb 0 d && qltb (rel_x r * rel_x r + rel_y r * rel_y r) (d * d).

(** Used for [anyone_to_yield_to], speed.py:91-108; [emergency_needed], speed.py:110-127. *)
Definition between (a x b : Qc) : bool := qleb a x && qleb x b.

Section SB.
Context {X F : Type} (K : kin X) (sp : sb_param) (me : player).

Notation agents := (list (player * (X * F))).
Notation rels := (list (player * rel_pose)).

(** is_there_anyone_to_yield_to, speed.py:91-108: the loop over self.agents. *)
Fixpoint anyone_to_yield_to (rs : rels) (l : agents) : result bool :=
  match l with
  | [] => Ok false
  | (p, (x, _)) :: r =>
      if Nat.eqb p me then anyone_to_yield_to rs r
      else match dgetE rs p with Err e => Err e | Ok rel =>
           match vx_of K x with None => Err ZValueError | Some v =>
           let right := between (py_pi / qz 4) (rel_theta rel) (py_pi * qz 3 / qz 4) && qltb (minimum_yield_vel sp) v in
           if right && nearer rel (yield_distance sp) then Ok true else anyone_to_yield_to rs r
           end end
  end.

(** is_emergency_subroutine_needed, speed.py:110-127, after reading myvel. *)
Fixpoint emergency_needed (myvel : Qc) (rs : rels) (l : agents) : result bool :=
  match l with
  | [] => Ok false
  | (p, (x, _)) :: r =>
      if Nat.eqb p me then emergency_needed myvel rs r
      else match dgetE rs p with Err e => Err e | Ok rel =>
           match vx_of K x with None => Err ZValueError | Some v =>
           let left := between (qz (-3) * py_pi / qz 4) (rel_theta rel) (- py_pi / qz 4) && qltb (minimum_yield_vel sp) v in
           let front := qltb 0 (rel_x rel) && between (qf (-12) 10) (rel_y rel) (qf 12 10) in
           let coming := between (qz 3 * py_pi / qz 4) (qabs (rel_theta rel)) (py_pi * qz 5 / qz 4) && front in
           if (left && nearer rel (yield_distance sp)) || (coming && nearer rel (safety_time sp * (myvel + v)))
           then Ok true else emergency_needed myvel rs r
           end end
  end.

(** The candidates of cruise_control, speed.py:129-152. *)
Fixpoint cruise_candidates (myvel : Qc) (rs : rels) (l : agents) : result (list Qc) :=
  match l with
  | [] => Ok []
  | (p, (x, _)) :: r =>
      if Nat.eqb p me then cruise_candidates myvel rs r
      else match dgetE rs p with Err e => Err e | Ok rel =>
           match vx_of K x with None => Err PyAttributeError | Some v =>
           let front := qltb (qf 1 2) (rel_x rel) && qleb (qabs (rel_y rel)) (qf 12 10) && qltb (qabs (rel_theta rel)) (py_pi / qz 6) in
           let keep := myvel * safety_time sp + qmax (myvel - v) 0 in
           let c := if front && nearer rel keep then qclip (v - qmax (myvel - v) 0) 0 (kmh2ms (qz 130)) else nominal_speed sp in
           match cruise_candidates myvel rs r with Err e => Err e | Ok cs => Ok (c :: cs) end
           end end
  end.

(** Used for [get_speed_ref], speed.py:70-89. *)
Definition qmin_list (d : Qc) (l : list Qc) : Qc := fold_left qmin l d.

(** get_speed_ref, speed.py:70-89: the reference and the emergency flag.
    Calling it before update_observations is a TypeError. *)
Definition get_speed_ref (obs : option agents) : result (Qc * bool) :=
  match obs with None => Err PyTypeError | Some l =>
  match dgetE l me with Err e => Err e | Ok mine =>
  match rmapM (fun e => match relative K (fst mine) (fst (snd e)) with
                        | None => Err ZValueError
                        | Some r => Ok (fst e, r)
                        end) l with Err e => Err e | Ok rs =>
  match anyone_to_yield_to rs l with Err e => Err e | Ok yields =>
  match vx_of K (fst mine) with None => Err PyAttributeError | Some myvel =>
  match emergency_needed myvel rs l with Err e => Err e | Ok emergency =>
  if yields || emergency then Ok (0, emergency)
  else match cruise_candidates myvel rs l with Err e => Err e | Ok cs =>
       Ok (qmin_list (nominal_speed sp) cs, emergency) end
  end end end end end end.
End SB.
