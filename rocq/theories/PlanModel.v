(** Model of src/dg_commons/planning/motion_primitives.py,
    src/dg_commons/planning/commands_sampler.py and of the Euler step of
    src/dg_commons/dynamics/bicycle_dynamic.py. *)
From Coq Require Import QArith Qcanon ZArith List Bool Arith.
From Verif Require Import Base Num SeqModel VehState TrajModel.
Import ListNotations.
Open Scope Qc_scope.

(** numpy.linspace(lo, hi, n): n evenly spaced samples including both ends; one
    sample is [lo]; a negative count raises ValueError.
    Used for [mp_generate], motion_primitives.py:56-100; [cs_generate], commands_sampler.py:57-74. *)
Definition linspace (lo hi : Qc) (n : Z) : result (list Qc) :=
  if (n <? 0)%Z then Err PyValueError
  else Ok (map (fun i => lo + qn i * ((hi - lo) / qz (n - 1))) (List.seq 0 (Z.to_nat n))).

(** MPGParam / CommandsSamplerParam, motion_primitives.py:17-22,
    commands_sampler.py:18-23: [(lo, hi, n)] ranges. *)
Record gparam := mkGP { gp_dt : Qc; gp_steps : Z; gp_a : Qc * Qc * Z; gp_b : Qc * Qc * Z }.

(** Used for [mp_generate], motion_primitives.py:56-100; [cs_generate], commands_sampler.py:57-74. *)
Definition linspace3 (r : Qc * Qc * Z) : result (list Qc) := let '(lo, hi, n) := r in linspace lo hi n.

(** MPGParam.from_vehicle_parameters, motion_primitives.py:26-40. *)
Definition mpg_from_vehicle (dt : Qc) (steps n_vel n_steer : Z) (vp : vparams) : gparam :=
  mkGP dt steps (vp_vx_lo vp, vp_vx_hi vp, n_vel) (- vp_delta_max vp, vp_delta_max vp, n_steer).

(** The vehicle dynamics: a caller-supplied function.
    Used for [rollout], motion_primitives.py:94-97; [primitive1], motion_primitives.py:79-98. *)
Definition dyn := vstate -> vcmd -> Qc -> result vstate.

(** check_input_constraints, motion_primitives.py:109-125.  The samples are
    numpy floats: division by a zero horizon gives an infinity or NaN, which
    fails the comparisons with finite limits. *)
Definition check_input_constraints (p : gparam) (vp : vparams) (v0 v1 d0 d1 : Qc) : option (Qc * Qc) :=
  let horizon := gp_dt p * qz (gp_steps p) in
  if qeqb horizon 0 then None
  else
    let acc := (v1 - v0) / horizon in
    let rate := (d1 - d0) / horizon in
    if negb (qleb (- vp_ddelta_max vp) rate && qleb rate (vp_ddelta_max vp)) ||
       negb (qleb (vp_acc_lo vp) acc && qleb acc (vp_acc_hi vp))
    then None else Some (acc, rate).

(** The integration loop, motion_primitives.py:94-97: n_step = k, k+1, ... *)
Fixpoint rollout (f : dyn) (c : vcmd) (dt : Qc) (s : vstate) (k n : nat) : result (list (Qc * vstate)) :=
  match n with
  | O => Ok []
  | S m =>
      match f s c dt with
      | Err e => Err e
      | Ok s' => match rollout f c dt s' (S k) m with
                 | Err e => Err e
                 | Ok r => Ok ((qn k * dt, s') :: r)
                 end
      end
  end.

(** One candidate of the double loop, motion_primitives.py:79-98: None if the
    constraints reject it. *)
Definition primitive1 (p : gparam) (vp : vparams) (f : dyn) (x0 : option vstate) (c : (Qc * Qc) * (Qc * Qc))
  : result (option traj) :=
  let '((v0, d0), (v1, d1)) := c in
  match check_input_constraints p vp v0 v1 d0 d1 with
  | None => Ok None
  | Some (acc, rate) =>
      let init := match x0 with None => mkVS 0 0 0 v0 d0 | Some x => x end in
      match rollout f (mkVC acc rate) (gp_dt p) init 1 (Z.to_nat (gp_steps p)) with
      | Err e => Err e
      | Ok l => match new_traj (0 :: map fst l) (init :: map snd l) with
                | Err e => Err e
                | Ok t => Ok (Some t)
                end
      end
  end.

(** Used for [mp_generate], motion_primitives.py:56-100. *)
Definition omap {A} (l : list (option A)) : list A :=
  flat_map (fun o => match o with Some x => [x] | None => [] end) l.

(** MotionPrimitivesGenerator.generate, motion_primitives.py:56-100.  The
    returned set is modelled by the list of added elements. *)
Definition mp_generate (p : gparam) (vp : vparams) (f : dyn) (x0 : option vstate) : result (list traj) :=
  match linspace3 (gp_a p), linspace3 (gp_b p) with
  | Err e, _ | _, Err e => Err e
  | Ok vs, Ok ds =>
      let vi := match x0 with None => vs | Some x => [vs_vx x] end in
      let di := match x0 with None => ds | Some x => [vs_delta x] end in
      match rmapM (primitive1 p vp f x0) (list_prod (list_prod vi di) (list_prod vs ds)) with
      | Err e => Err e
      | Ok l => Ok (omap l)
      end
  end.

(** ** CommandsSampler *)

(** CommandsSamplerParam.__post_init__, commands_sampler.py:24-27. *)
Definition sampler_param (p : gparam) : result gparam :=
  if (gp_steps p =? 1)%Z then Ok p else Err PyAssertionError.

(** CommandsSamplerParam.from_vehicle_parameters, commands_sampler.py:29-43. *)
Definition sampler_from_vehicle (dt : Qc) (steps n_acc n_rate : Z) (vp : vparams) : result gparam :=
  sampler_param (mkGP dt steps (vp_vx_lo vp, vp_vx_hi vp, n_acc) (- vp_delta_max vp, vp_delta_max vp, n_rate)).

(** Used for [params_ok], commands_sampler.py:76-84. *)
Definition rlo (r : Qc * Qc * Z) : Qc := fst (fst r).
Definition rhi (r : Qc * Qc * Z) : Qc := snd (fst r).

(** update_params, commands_sampler.py:76-84; a sampler is its vehicle
    parameters, its dynamics and its current parameters. *)
Record sampler := mkSampler { sa_vp : vparams; sa_dyn : dyn; sa_param : gparam }.
Definition params_ok (vp : vparams) (p : gparam) : bool :=
  (qleb (vp_acc_lo vp) (rlo (gp_a p)) && qleb (rlo (gp_a p)) (rhi (gp_a p)) && qleb (rhi (gp_a p)) (vp_acc_hi vp)) &&
  (qleb (- vp_ddelta_max vp) (rlo (gp_b p)) && qleb (rlo (gp_b p)) (rhi (gp_b p)) && qleb (rhi (gp_b p)) (vp_ddelta_max vp)).
Definition update_params (s : sampler) (p : gparam) : result sampler :=
  if params_ok (sa_vp s) p then Ok (mkSampler (sa_vp s) (sa_dyn s) p) else Err PyAssertionError.
(** CommandsSampler.__init__, commands_sampler.py:47-55. *)
Definition new_sampler (p : gparam) (f : dyn) (vp : vparams) : result sampler :=
  if params_ok vp p then Ok (mkSampler vp f p) else Err PyAssertionError.

(** One iteration of generate, commands_sampler.py:60-72. *)
Definition sample1 (s : sampler) (x0 : vstate) (c : Qc * Qc) : result traj :=
  match sa_dyn s x0 (mkVC (fst c) (snd c)) (gp_dt (sa_param s)) with
  | Err e => Err e
  | Ok x1 => new_traj [0; gp_dt (sa_param s)] [x0; x1]
  end.
(** CommandsSampler.generate, commands_sampler.py:57-74. *)
Definition cs_generate (s : sampler) (x0 : vstate) : result (list traj) :=
  match linspace3 (gp_a (sa_param s)), linspace3 (gp_b (sa_param s)) with
  | Err e, _ | _, Err e => Err e
  | Ok accs, Ok rates => rmapM (sample1 s x0) (list_prod accs rates)
  end.

(** ** BicycleDynamics *)

(** math.cos, math.sin, math.tan: parameters, no property of them is used.
    Used for [bicycle_rate], bicycle_dynamic.py:84-95; [bicycle_step], bicycle_dynamic.py:36-52. *)
Record trig := mkTrig { t_cos : Qc -> Qc; t_sin : Qc -> Qc; t_tan : Qc -> Qc }.

(** dynamics, bicycle_dynamic.py:84-95. *)
Definition bicycle_rate (T : trig) (wheelbase lr : Qc) (x : vstate) (u : vcmd) : vstate :=
  let dx := vs_vx x in
  let dtheta := dx * t_tan T (vs_delta x) / wheelbase in
  let dy := dtheta * lr in
  let costh := t_cos T (vs_psi x) in
  let sinth := t_sin T (vs_psi x) in
  mkVS (dx * costh - dy * sinth) (dx * sinth + dy * costh) dtheta (vc_acc u) (vc_ddelta u).

(** successor, bicycle_dynamic.py:36-52. *)
Definition bicycle_step (T : trig) (wheelbase lr : Qc) (vp : vparams) : dyn := fun x u dt =>
  let acc := qclip (vc_acc u) (vp_acc_lo vp) (vp_acc_hi vp) in
  let ddelta := qclip (vc_ddelta u) (- vp_ddelta_max vp) (vp_ddelta_max vp) in
  let x1 := vs_add x (vs_mul (bicycle_rate T wheelbase lr x (mkVC acc ddelta)) dt) in
  Ok (mkVS (vs_x x1) (vs_y x1) (vs_psi x1)
           (qclip (vs_vx x1) (vp_vx_lo vp) (vp_vx_hi vp))
           (qclip (vs_delta x1) (- vp_delta_max vp) (vp_delta_max vp))).
