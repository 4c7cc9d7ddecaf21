(* Generated from tools/Plan.src by tools/gen_props.py. *)
(** Properties of motion primitives and of the commands sampler. *)
From Coq Require Import QArith Qcanon ZArith List Bool Arith Lia Sorted.
From Verif Require Import Base Num SeqModel SeqSpec SeqProofs SeqProofs2 VehState TrajModel TrajSpec TrajProofs PlanModel PlanSpec PlanProofs.
Import ListNotations.
Open Scope Qc_scope.
From Verif Require Import PlanMain.

(** ** C18 *)

(** The result of generate is exactly the set of drives from an admissible start
    to a grid target whose one constant command is inside the limits. *)
Theorem C18_primitives_are_the_feasible_drives : forall p vp f x0 mps, 0 < gp_dt p -> (1 <= gp_steps p)%Z ->
  mp_generate p vp f x0 = Ok mps ->
  (forall t, In t mps -> exists s v1 d1 c, start_state p x0 s /\ on_grid (gp_a p) v1 /\ on_grid (gp_b p) d1 /\
     vc_acc c * (gp_dt p * qz (gp_steps p)) = v1 - vs_vx s /\
     vc_ddelta c * (gp_dt p * qz (gp_steps p)) = d1 - vs_delta s /\
     in_limits vp c /\ drives f c (gp_dt p) (Z.to_nat (gp_steps p)) s t) /\
  (forall s v1 d1 c, start_state p x0 s -> on_grid (gp_a p) v1 -> on_grid (gp_b p) d1 ->
     vc_acc c * (gp_dt p * qz (gp_steps p)) = v1 - vs_vx s ->
     vc_ddelta c * (gp_dt p * qz (gp_steps p)) = d1 - vs_delta s ->
     in_limits vp c -> exists t, In t mps /\ drives f c (gp_dt p) (Z.to_nat (gp_steps p)) s t).
Proof. exact C18_primitives_are_the_feasible_drives_pf. Qed.
Print Assumptions C18_primitives_are_the_feasible_drives.

(** Timestamps are 0, dt, ..., n*dt and the first state is the start. *)
Theorem C18_primitive_samples : forall p vp f x0 mps t, 0 < gp_dt p -> (1 <= gp_steps p)%Z ->
  mp_generate p vp f x0 = Ok mps -> In t mps ->
  tss t = map (fun k => qn k * gp_dt p) (List.seq 0 (S (Z.to_nat (gp_steps p)))) /\
  length (vals t) = S (Z.to_nat (gp_steps p)) /\
  (exists s, start_state p x0 s /\ nth_error (vals t) 0 = Some s) /\ obtainable t.
Proof. exact C18_primitive_samples_pf. Qed.
Print Assumptions C18_primitive_samples.

(** generate only fails when the dynamics do, or on a negative sample count. *)
Theorem C18_generate_total : forall p vp f x0, 0 < gp_dt p ->
  ((0 <= snd (gp_a p))%Z -> (0 <= snd (gp_b p))%Z -> (forall s c, exists s', f s c (gp_dt p) = Ok s') ->
     exists mps, mp_generate p vp f x0 = Ok mps) /\
  ((snd (gp_a p) < 0)%Z \/ (snd (gp_b p) < 0)%Z -> mp_generate p vp f x0 = Err PyValueError).
Proof. exact C18_generate_total_pf. Qed.
Print Assumptions C18_generate_total.

(** With the kinematic bicycle dynamics and the ranges of
    MPGParam.from_vehicle_parameters, every primitive ends exactly at its grid
    speed and steering angle, whatever cos, sin and tan return. *)
Theorem C18_bicycle_primitives_reach_their_target : forall T wheelbase lr vp dt steps nv ns mps t,
  vparams_ok vp = true -> 0 < dt -> (1 <= steps)%Z ->
  mp_generate (mpg_from_vehicle dt steps nv ns vp) vp (bicycle_step T wheelbase lr vp) None = Ok mps -> In t mps ->
  exists v1 d1 x, on_grid (vp_vx_lo vp, vp_vx_hi vp, nv) v1 /\
    on_grid (- vp_delta_max vp, vp_delta_max vp, ns) d1 /\
    last_of (vals t) = Some x /\ vs_vx x = v1 /\ vs_delta x = d1.
Proof. exact C18_bicycle_primitives_reach_their_target_pf. Qed.
Print Assumptions C18_bicycle_primitives_reach_their_target.

(** Every generated grid value lies inside its range. *)
Theorem C18_grid_inside_range : forall r x, rlo r <= rhi r -> on_grid r x -> rlo r <= x /\ x <= rhi r.
Proof. exact C18_grid_inside_range_pf. Qed.
Print Assumptions C18_grid_inside_range.

Example C18_ex : rmap (fun l => map (fun t => map (fun s => (vs_vx s, vs_delta s)) (vals t)) l)
    (mp_generate (mkGP 1 2 (0, qz 4, 3%Z) (0, 0, 1%Z)) vp_car (fun s c dt => Ok (vs_add s (mkVS 0 0 0 (vc_acc c * dt) (vc_ddelta c * dt)))) (Some (mkVS 0 0 0 (qz 1) 0)))
  = Ok [[(qz 1, 0); (qf 1 2, 0); (0, 0)]; [(qz 1, 0); (qf 3 2, 0); (qz 2, 0)]; [(qz 1, 0); (qf 5 2, 0); (qz 4, 0)]].
Proof. qcompute. Qed.

Example C18_ex2 : rmap (@length _) (mp_generate (mpg_from_vehicle 1 2 3 2 vp_car) vp_car
    (bicycle_step (mkTrig (fun x => x) (fun x => x) (fun x => x)) (qz 3) 1 vp_car) None) = Ok 6%nat /\ vparams_ok vp_car = true.
Proof. split; vm_compute; reflexivity. Qed.

(** ** C19 *)

(** A sampler exists only with ranges inside the vehicle's limits; a rejected
    update leaves the ranges unchanged. *)
Theorem C19_sampler_ranges_inside_limits : forall p f vp,
  (forall s, new_sampler p f vp = Ok s -> sa_vp s = vp /\ sa_param s = p) /\
  ((exists s, new_sampler p f vp = Ok s) <->
     vp_acc_lo vp <= rlo (gp_a p) /\ rlo (gp_a p) <= rhi (gp_a p) /\ rhi (gp_a p) <= vp_acc_hi vp /\
     - vp_ddelta_max vp <= rlo (gp_b p) /\ rlo (gp_b p) <= rhi (gp_b p) /\ rhi (gp_b p) <= vp_ddelta_max vp) /\
  (forall s p' s', new_sampler p f vp = Ok s -> update_params s p' = Ok s' ->
     new_sampler p' f vp = Ok s').
Proof. exact C19_sampler_ranges_inside_limits_pf. Qed.
Print Assumptions C19_sampler_ranges_inside_limits.

(** generate returns one one-step trajectory per grid pair, in grid order, from
    the given state; every command used is inside the vehicle's limits. *)
Theorem C19_one_trajectory_per_grid_pair : forall p f vp s x0 trs, new_sampler p f vp = Ok s -> 0 < gp_dt p ->
  cs_generate s x0 = Ok trs ->
  length trs = (Z.to_nat (snd (gp_a p)) * Z.to_nat (snd (gp_b p)))%nat /\
  (forall t, In t trs -> exists c x1, on_grid (gp_a p) (vc_acc c) /\ on_grid (gp_b p) (vc_ddelta c) /\ in_limits vp c /\
     f x0 c (gp_dt p) = Ok x1 /\ iter t = [(0, x0); (gp_dt p, x1)]) /\
  (forall c, on_grid (gp_a p) (vc_acc c) -> on_grid (gp_b p) (vc_ddelta c) ->
     exists t x1, In t trs /\ f x0 c (gp_dt p) = Ok x1 /\ iter t = [(0, x0); (gp_dt p, x1)]).
Proof. exact C19_one_trajectory_per_grid_pair_pf. Qed.
Print Assumptions C19_one_trajectory_per_grid_pair.

(** generate succeeds whenever the dynamics do; with a non-positive time step it
    raises ValueError as soon as the grid is not empty. *)
Theorem C19_generate_total : forall p f vp s x0, new_sampler p f vp = Ok s ->
  (0 <= snd (gp_a p))%Z -> (0 <= snd (gp_b p))%Z -> (forall c, exists x1, f x0 c (gp_dt p) = Ok x1) ->
  (0 < gp_dt p -> exists trs, cs_generate s x0 = Ok trs) /\
  (gp_dt p <= 0 -> (1 <= snd (gp_a p))%Z -> (1 <= snd (gp_b p))%Z -> cs_generate s x0 = Err ZValueError).
Proof. exact C19_generate_total_pf. Qed.
Print Assumptions C19_generate_total.

(** Building a sampler from a vehicle's own parameters: the code uses the speed
    and steering-angle ranges as acceleration and steering-rate ranges. *)
Theorem C19_from_vehicle_parameters : forall dt na nr vp f, vparams_ok vp = true ->
  (forall steps, steps <> 1%Z -> sampler_from_vehicle dt steps na nr vp = Err PyAssertionError) /\
  exists p, sampler_from_vehicle dt 1 na nr vp = Ok p /\ gp_dt p = dt /\
    gp_a p = (vp_vx_lo vp, vp_vx_hi vp, na) /\ gp_b p = (- vp_delta_max vp, vp_delta_max vp, nr) /\
    ((exists s, new_sampler p f vp = Ok s) <->
       vp_acc_lo vp <= vp_vx_lo vp /\ vp_vx_hi vp <= vp_acc_hi vp /\ vp_delta_max vp <= vp_ddelta_max vp).
Proof. exact C19_from_vehicle_parameters_pf. Qed.
Print Assumptions C19_from_vehicle_parameters.

(** So "from_vehicle_parameters" parameters are rejected for the default car,
    truck and bicycle. *)
Theorem C19_from_vehicle_refuted : forall dt na nr f vp, In vp [vp_car; vp_truck; vp_bicycle] ->
  vparams_ok vp = true /\
  exists p, sampler_from_vehicle dt 1 na nr vp = Ok p /\ new_sampler p f vp = Err PyAssertionError.
Proof. exact C19_from_vehicle_refuted_pf. Qed.
Print Assumptions C19_from_vehicle_refuted.

Example C19_ex : rmap (fun s => rmap (map (@iter _)) (cs_generate s (mkVS 0 0 0 (qz 1) 0)))
    (new_sampler (mkGP (qf 1 2) 1 (qz (-2), qz 2, 2%Z) (0, qf 1 2, 1%Z))
       (fun s c dt => Ok (vs_add s (mkVS 0 0 0 (vc_acc c * dt) (vc_ddelta c * dt)))) vp_car) =
  Ok (Ok [[(0, mkVS 0 0 0 (qz 1) 0); (qf 1 2, mkVS 0 0 0 0 0)]; [(0, mkVS 0 0 0 (qz 1) 0); (qf 1 2, mkVS 0 0 0 (qz 2) 0)]]).
Proof. qcompute. Qed.
