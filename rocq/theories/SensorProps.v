(* Generated from tools/Sensor.src by tools/gen_props.py. *)
(** Properties of the sensors. *)
From Coq Require Import Reals Lra Psatz List Bool ZArith Lia Arith.
From Verif Require Import Base R2 LaneModel LaneProofs BodyModel BodySpec BodyProofs SensorModel SensorSpec SensorProofs.
Import ListNotations.
Open Scope R_scope.
From Verif Require Import SensorMain.

(** ** C67 *)

(** Which sensors there are. *)
Theorem C67_constructor : forall p th r f s, make_sensor p th r f = Ok s <-> 0 < r /\ f <= 2 * PI /\ s = mkSensor p th r f (atan (1 / r)).
Proof. exact C67_constructor_pf. Qed.
Print Assumptions C67_constructor.

(** A sensor of range 0 passes the checks of the constructor, which then fails. *)
Theorem C67_zero_range_refuted : forall p th f, make_sensor p th 0 f = Err PyZeroDivisionError.
Proof. exact C67_zero_range_refuted_pf. Qed.
Print Assumptions C67_zero_range_refuted.

(** No vertex is out of range, whatever the ray tracer returns. *)
Theorem C67_in_range : forall rt s vs v, 0 <= s_range s -> vis_range_fov rt s = Ok vs -> In v vs -> vdist (s_p s) v <= s_range s.
Proof. exact C67_in_range_pf. Qed.
Print Assumptions C67_in_range.

(** The vertex of a ray is a nearest one of its hits and its end. *)
Theorem C67_nearest_hit : forall rt s angle, let e := at_dir (s_p s) angle (s_range s) in let w := ray_vertex rt s angle in
  (w = e \/ exists i o, In (i, o) (rt (s_p s) e) /\ (w = i \/ w = o)) /\ vdist (s_p s) w <= vdist (s_p s) e /\
  forall i o, In (i, o) (rt (s_p s) e) -> vdist (s_p s) w <= vdist (s_p s) i /\ vdist (s_p s) w <= vdist (s_p s) o.
Proof. exact C67_nearest_hit_pf. Qed.
Print Assumptions C67_nearest_hit.

(** What a sensor sees with a ray tracer that is right about the obstacles: rays from the
    right to the left end of the field of view, each up to the first obstacle; the position
    of the sensor is a vertex exactly if it does not look in all directions. *)
Theorem C67_rays : forall p th r f s obstacle rt, make_sensor p th r f = Ok s -> right_raytrace obstacle rt -> 0 <= f ->
  exists n d vs, INR n <= f / atan (1 / r) < INR n + 1 /\ vis_range_fov rt s = Ok vs /\
    let v i := at_dir p (th - f / 2 + INR i * (f / INR n)) (d i) in
    (2 * PI < f + atan (1 / r) -> vs = map v (List.seq 0 (n + 1)) ++ [v 0%nat]) /\ (f + atan (1 / r) <= 2 * PI -> vs = p :: map v (List.seq 0 (n + 1)) ++ [p]) /\
    forall i, (i <= n)%nat -> 0 <= d i <= r /\ (forall x, 0 <= x < d i -> ~ obstacle (at_dir p (th - f / 2 + INR i * (f / INR n)) x)) /\ (d i < r -> obstacle (v i)).
Proof. exact C67_rays_pf. Qed.
Print Assumptions C67_rays.

(** Neighbouring rays are at least the resolution, less than twice the resolution and less
    than half a turn apart, and a sensor that looks in all directions has at least four
    rays, at most a third of a turn apart. *)
Theorem C67_spacing : forall r f n, 0 < r -> INR n <= f / atan (1 / r) < INR n + 1 -> (1 <= n)%nat ->
  atan (1 / r) <= f / INR n < 2 * atan (1 / r) /\ f / INR n < PI /\ (2 * PI < f + atan (1 / r) -> f <= 2 * PI -> (3 <= n)%nat /\ f / INR n <= 2 * PI / 3).
Proof. exact C67_spacing_pf. Qed.
Print Assumptions C67_spacing.

(** A narrow field of view is not seen: there is one ray, at its right end, and the three
    vertices make no polygon.  A negative field of view is accepted too. *)
Theorem C67_narrow_refuted : forall p th r f s rt, make_sensor p th r f = Ok s -> 0 <= f < atan (1 / r) -> vis_range_fov rt s = Ok [p; ray_vertex rt s (th - f / 2); p].
Proof. exact C67_narrow_refuted_pf. Qed.
Print Assumptions C67_narrow_refuted.

Theorem C67_negative_fov_refuted : forall p th r f rt, 0 < r -> f < 0 -> exists s, make_sensor p th r f = Ok s /\ forall vs, vis_range_fov rt s = Ok vs -> (length vs <= 3)%nat.
Proof. exact C67_negative_fov_refuted_pf. Qed.
Print Assumptions C67_negative_fov_refuted.

(** Obstacles between two rays are not seen: for every sensor there is a disc, at any
    distance, that hides nothing, although it is inside the polygon. *)
Theorem C67_between_rays_refuted : forall p th r f s n, make_sensor p th r f = Ok s -> INR n <= f / atan (1 / r) < INR n + 1 -> (1 <= n)%nat ->
  forall d, 0 < d < r * cos (f / INR n / 2) -> let c := at_dir p (th - f / 2 + f / INR n / 2) d in
  exists eps, 0 < eps /\ in_triangle (p, at_dir p (th - f / 2) r, at_dir p (th - f / 2 + f / INR n) r) c /\
    forall rt rt0, right_raytrace (fun x => vdist c x <= eps) rt -> right_raytrace (fun x => False) rt0 ->
      vis_range_fov rt s = vis_range_fov rt0 s /\ exists vs, vis_range_fov rt s = Ok vs /\ In (at_dir p (th - f / 2) r) vs /\ In (at_dir p (th - f / 2 + f / INR n) r) vs.
Proof. exact C67_between_rays_refuted_pf. Qed.
Print Assumptions C67_between_rays_refuted.

(** A full range sensor returns the vertices of a disc if it looks in all directions, and
    fails otherwise. *)
Theorem C67_full_range : forall quad p th r f s, make_sensor p th r f = Ok s ->
  (2 * PI < f + atan (1 / r) -> exists vs, full_range_fov quad s = Ok vs /\ length vs = (4 * quad + 1)%nat /\ forall v, In v vs -> vdist p v = r) /\
  (f + atan (1 / r) <= 2 * PI -> full_range_fov quad s = Err PyOther).
Proof. exact C67_full_range_pf. Qed.
Print Assumptions C67_full_range.

(** A right ray tracer for a disc, a sensor with a range of one metre that looks to the
    front, and one that looks in all directions. *)
Example C67_ex : right_raytrace (fun x => vdist (2, 3) x <= 1) (disc_raytrace (2, 3) 1) /\ right_raytrace (fun _ => False) (fun _ _ => []) /\
  (exists s, make_sensor (0, 0) 0 1 (PI / 2) = Ok s) /\ INR 2 <= PI / 2 / atan (1 / 1) < INR 2 + 1 /\ PI / 2 + atan (1 / 1) <= 2 * PI /\
  (exists s, make_sensor (0, 0) 0 1 (2 * PI) = Ok s) /\ 2 * PI < 2 * PI + atan (1 / 1) /\ (0 < 1 / 10 < 1 * cos (PI / 2 / INR 2 / 2)) /\ 0 <= PI / 8 < atan (1 / 1).
Proof.
  pose proof PI_RGT_0 as P. assert (A : atan (1 / 1) = PI / 4) by (replace (1 / 1) with 1 by field; apply atan_1). split; [apply disc_right; lra|]. split; [intros a b; split; [contradiction|split; [contradiction|contradiction]]|]. rewrite A.
  split; [eexists; apply C67_constructor; split; [lra|split; [lra|reflexivity]]|]. split; [replace (PI / 2 / (PI / 4)) with 2 by (field; lra); cbn [INR]; lra|]. split; [lra|]. split; [eexists; apply C67_constructor; split; [lra|split; [lra|reflexivity]]|]. split; [lra|]. split; [|lra].
  split; [lra|]. assert (cos (PI / 4) < cos (PI / 2 / INR 2 / 2)). { cbn [INR]. apply cos_decreasing_1; lra. } assert (/ 10 < cos (PI / 4)); [|lra]. rewrite cos_PI4. unfold Rdiv. rewrite Rmult_1_l. apply Rinv_lt_contravar; [apply Rmult_lt_0_compat; [apply sqrt_lt_R0; lra|lra]|]. apply Rsqr_incrst_0; [rewrite Rsqr_sqrt by lra; unfold Rsqr; lra|apply sqrt_pos|lra].
Qed.
