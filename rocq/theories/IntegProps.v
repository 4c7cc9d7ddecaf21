(* Generated from tools/Integ.src by tools/gen_props.py. *)
(** Updates of the models integrate their equations of motion. *)
From Coq Require Import Reals List Lra Lia.
From Verif Require Import Base DynModel MoveModel IntegSpec.
Import ListNotations.
Open Scope R_scope.
From Verif Require Import IntegMain.

(** C112.  An update moves the state as the explicit Runge-Kutta method moves
    the solution of the equations of motion, every coordinate by its own rate,
    with the same commands during the whole update. *)

Theorem C112_vehicle : forall g p tab c st u hs st', update (vehicle_plant g p) tab c st u hs = Some st' <->
  integrates v_co (fun x => Some (vehicle_dynamics g p x (if (c && negb (vtype_eqb (vg_type g) CAR))%bool then mkVCm 0 0 else u))) tab st hs st'.
Proof. exact C112_vehicle_pf. Qed.
Print Assumptions C112_vehicle.

Theorem C112_vehicle_dyn : forall g p pf pr tab c st u hs st', update (vehicle_dyn_plant g p pf pr) tab c st u hs = Some st' <->
  integrates d_co (fun x => vehicle_dyn_dynamics g p pf pr c st x (if (c && negb (vtype_eqb (vg_type g) CAR))%bool then mkVCm 0 0 else u)) tab st hs st'.
Proof. exact C112_vehicle_dyn_pf. Qed.
Print Assumptions C112_vehicle_dyn.

Theorem C112_pedestrian : forall p tab c st u hs st', update (pedestrian_plant p) tab c st u hs = Some st' <->
  integrates s_co (fun x => Some (pedestrian_dynamics p c st x (if c then mkPC 0 0 else u))) tab st hs st'.
Proof. exact C112_pedestrian_pf. Qed.
Print Assumptions C112_pedestrian.

Theorem C112_diff_drive : forall wb wr lo hi tab c st u hs st', update (diff_drive_plant wb wr lo hi) tab c st u hs = Some st' <->
  integrates w_co (fun x => Some (diff_drive_dynamics wb wr lo hi x (if c then mkWC 0 0 else u))) tab st hs st'.
Proof. exact C112_diff_drive_pf. Qed.
Print Assumptions C112_diff_drive.

Theorem C112_spacecraft : forall p lo hi w m Iz tab c st u hs st', update (spacecraft_plant p lo hi w m Iz) tab c st u hs = Some st' <->
  integrates s_co (fun x => Some (spacecraft_dynamics p lo hi w m Iz x (if c then mkSC 0 0 else u))) tab st hs st'.
Proof. exact C112_spacecraft_pf. Qed.
Print Assumptions C112_spacecraft.

Theorem C112_obstacle : forall p lo hi tab c st u hs st', update (obstacle_plant p lo hi) tab c st u hs = Some st' <->
  integrates s_co (fun x => Some (obstacle_dynamics p lo hi x u)) tab st hs st'.
Proof. exact C112_obstacle_pf. Qed.
Print Assumptions C112_obstacle.

Theorem C112_rocket : forall p Iz l_m tab c st u hs st', update (rocket_plant p Iz l_m) tab c st u hs = Some st' <->
  integrates r_co (fun x => Some (rocket_dynamics p Iz l_m x (if c then mkRC 0 0 0 else u))) tab st hs st'.
Proof. exact C112_rocket_pf. Qed.
Print Assumptions C112_rocket.

Theorem C112_spaceship : forall p Iz l_r tab c st u hs st', update (spaceship_plant p Iz l_r) tab c st u hs = Some st' <->
  integrates r_co (fun x => Some (spaceship_dynamics p Iz l_r x (if c then mkSSC 0 0 else u))) tab st hs st'.
Proof. exact C112_spaceship_pf. Qed.
Print Assumptions C112_spaceship.

(** The same for the dynamics of the planner. *)

Theorem C112_planner : forall g tab st u hs st', successor_ivp g tab st u hs = Ok st' <->
  integrates v_co (fun x => Some (bicycle_dynamics g x u)) tab st hs st'.
Proof. exact C112_planner_pf. Qed.
Print Assumptions C112_planner.

(** Two wheels turning alike: two steps of one second move the robot forward. *)
Example C112_ex : update (diff_drive_plant 1 (1 / 2) (-3) 3) ([[]], [1]) false (mk3 0 0 0) (mkWC 2 2) [1; 1] = Some (mk3 2 0 0) /\
  integrates w_co (fun x => Some (diff_drive_dynamics 1 (1 / 2) (-3) 3 x (mkWC 2 2))) ([[]], [1]) (mk3 0 0 0) [1; 1] (mk3 2 0 0).
Proof.
  assert (D : forall x y, diff_drive_dynamics 1 (1 / 2) (-3) 3 (mk3 x y 0) (mkWC 2 2) = mk3 1 0 0).
  { intros. unfold diff_drive_dynamics, rclip. cbn. rewrite cos_0, sin_0, Rmax_left, Rmin_left by (unfold Rmax, Rmin; repeat destruct Rle_dec; lra). f_equal; lra. }
  assert (I : integrates w_co (fun x => Some (diff_drive_dynamics 1 (1 / 2) (-3) 3 x (mkWC 2 2))) ([[]], [1]) (mk3 0 0 0) [1; 1] (mk3 2 0 0)).
  { apply (moves _ _ _ _ _ [mk3 1 0 0] (mk3 1 0 0)); [split; [reflexivity|]| |apply (moves _ _ _ _ _ [mk3 1 0 0] (mk3 2 0 0)); [split; [reflexivity|]| |constructor]].
    - intros [|[|i]] row E; try discriminate. injection E as <-. exists (mk3 0 0 0). split; [intro i; unfold weighted; cbn; lra|]. cbn. rewrite D. reflexivity.
    - intros [|[|[|[|i]]]]; unfold weighted; cbn; lra.
    - intros [|[|i]] row E; try discriminate. injection E as <-. exists (mk3 1 0 0). split; [intro i; unfold weighted; cbn; lra|]. cbn. rewrite D. reflexivity.
    - intros [|[|[|[|i]]]]; unfold weighted; cbn; lra. }
  split; [|exact I]. apply C112_diff_drive. exact I.
Qed.
