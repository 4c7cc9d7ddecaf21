(* Generated from tools/Place.src by tools/gen_props.py. *)
(** The same simulation somewhere else in the plane. *)
From Coq Require Import String Reals List Bool Arith QArith Qcanon Lra Lia.
From Verif Require Import Base Num R2 GeoModel DataModel LaneModel BodyModel DynModel DrawModel CollModel BuildModel ImpactModel LoopModel BodySpec DataSpec BuildSpec MoveSpec LoopSpec SeqModel SimulatorModel SimulatorSpec MorphSpec MorphMain ImpactMain LoopMain PlaceSpec PlaceProofs PlaceModels PlaceWorld.
Import ListNotations.
Open Scope R_scope.
Local Open Scope string_scope.
From Verif Require Import PlaceMain.

(** ** C138  The same simulation somewhere else in the plane *)

(** Turn everything by [a] and move it by [t].  A collision of two players is then resolved the same: each player gets the turned velocity, and the report is the report of the same collision there, with the same fault and the same energy; or the same exception is raised. *)
Theorem C138_collision : forall t a Sh (h : Sh -> Sh) (sh : shapely Sh) M Loc (md : model_ops M Loc) (Rm : M -> M -> Prop) i j ms ns sc sc' time,
  shapely_everywhere t a h sh -> models_everywhere t a h md Rm -> models_there Rm ms ns -> map_there t a sc sc' ->
  models_there Rm (fst (resolve_collision sh md i j ms sc time)) (fst (resolve_collision sh md i j ns sc' time)) /\
  snd (resolve_collision sh md i j ns sc' time) = outcome_there t a h (snd (resolve_collision sh md i j ms sc time)).
Proof. exact C138_collision_pf. Qed.
Print Assumptions C138_collision.

(** So is a collision with a static obstacle, if the obstacle has infinite inertia. *)
Theorem C138_obstacle : forall t a Sh (h : Sh -> Sh) (sh : shapely Sh) M Loc (md : model_ops M Loc) (Rm : M -> M -> Prop) everywhere env i m n s g time,
  shapely_everywhere t a h sh -> models_everywhere t a h md Rm -> Rm m n -> g_Iz g = CollModel.Inf ->
  Rm (fst (resolve_collision_with_environment sh md everywhere env i m s g time)) (fst (resolve_collision_with_environment sh md everywhere env i n (h s) g time)) /\
  snd (resolve_collision_with_environment sh md everywhere env i n (h s) g time) = outcome_there t a h (snd (resolve_collision_with_environment sh md everywhere env i m s g time)).
Proof. exact C138_obstacle_pf. Qed.
Print Assumptions C138_obstacle.

(** The models of the package, but rockets, are seen by the collision code where they are: footprint, mesh and pose are moved, velocities are turned, and velocities that are set are understood in the plane. *)
Theorem C138_models : forall t a union quad valid middle, (forall r, valid (map (there t a) r) = valid r) -> (forall r, r <> [] -> middle (map (there t a) r) = there t a (middle r)) ->
  models_everywhere t a (map (there t a)) (seen union quad valid middle) (model_there t a).
Proof. exact C138_models_pf. Qed.
Print Assumptions C138_models.

(** They move the same, with any Runge-Kutta method, before and after collisions. *)
Theorem C138_update : forall t a tab hs m n u dt, model_there t a m n -> both (model_there t a) (model_update (rk_array tab hs) m u dt) (model_update (rk_array tab hs) n u dt).
Proof. exact C138_update_pf. Qed.
Print Assumptions C138_update.

(** Complete runs.  If the agents, goals, sensors, maps and obstacles are moved with the models, the simulation there either raises the same exception or ends with the same commands, times and reports, and with the models and all the logged states moved. *)
Theorem C138_run : forall t a L C C' env onA onG onS onE onI onC (c : ctx (sim_world L C env)) (d : ctx (sim_world L C' env)) fuel,
  library_everywhere t a L -> company_everywhere t a C C' onA onG onS onE onI onC ->
  ctx_match (moved_world t a L C C' env onA onG onS onE onI onC) (fun p => p) 0%Qc c d ->
  opt (both (fun s z => ctx_match (moved_world t a L C C' env onA onG onS onE onI onC) (fun p => p) 0%Qc (cx s) (cx z))) (run fuel new_simulator c) (run fuel new_simulator d).
Proof. exact C138_run_pf. Qed.
Print Assumptions C138_run.

(** The same after every number of iterations. *)
Theorem C138_after : forall t a L C C' env onA onG onS onE onI onC (c : ctx (sim_world L C env)) (d : ctx (sim_world L C' env)) s0 k s,
  library_everywhere t a L -> company_everywhere t a C C' onA onG onS onE onI onC ->
  ctx_match (moved_world t a L C C' env onA onG onS onE onI onC) (fun p => p) 0%Qc c d -> init_run c new_simulator = Ok s0 -> after s0 k s ->
  exists z0 z, init_run d new_simulator = Ok z0 /\ after z0 k z /\ ctx_match (moved_world t a L C C' env onA onG onS onE onI onC) (fun p => p) 0%Qc (cx s) (cx z).
Proof. exact C138_after_pf. Qed.
Print Assumptions C138_after.

(** Rockets are left out because they are inconsistent: they move with the velocity of their state as a velocity in the plane (C104_rocket), but the collision code is told that velocity turned by the heading.  A rocket that moves along x is seen moving along x; the same rocket turned by a quarter turn moves along y and is seen moving backwards along x. *)
Theorem C138_rocket_refuted : exists m n x, mo_kind m = KRocket /\ mo_state m = st8_obj "RocketState" "phi" x /\ n = set_state m (st8_obj "RocketState" "phi" (rocket_at (0, 0) (PI / 2) x)) /\
  velocity m = Ok ((1, 0), 0) /\ velocity n = Ok ((- 1, 0), 0) /\ turn (PI / 2) (1, 0) = (0, 1).
Proof. exact C138_rocket_refuted_pf. Qed.
Print Assumptions C138_rocket_refuted.

(** Non-vacuity: two small models of a library that is the same everywhere run into a wall and are reported. *)
Example C138_obstacle_ex : forall t a, let m := (SE2_from_translation_angle (0, 0) 0, vscale 5 (3 / 5, 4 / 5)) in
  shapely_everywhere t a (there t a) dots /\ models_everywhere t a (there t a) puck (puck_there t a) /\ puck_there t a m (there_pose t a (fst m), turn a (snd m)) /\
  exists r, snd (resolve_collision_with_environment dots puck tt 0 1 m (vscale 5 (3 / 5, 4 / 5)) (CollModel.mkG CollModel.Inf CollModel.Inf 1) 0) = Ok (Some r).
Proof.
  intros t a m. split; [apply dots_everywhere|]. split; [apply puck_everywhere|]. split; [reflexivity|].
  destruct (puck_hits (SE2_from_translation_angle (0, 0) 0) (3 / 5, 4 / 5) CollModel.Inf) as (r & E); [reflexivity|unfold vdot; cbn; field|]. exists r. unfold m. rewrite E. reflexivity.
Qed.

(** The condition on obstacles is needed.  For an obstacle with a finite moment of inertia, even one that cannot be pushed, the collision code takes the vector from the obstacle to the point of impact to be (1, 1) whatever the place and the direction of the impact: after a quarter turn of everything the same impact gives another speed. *)
Theorem C138_obstacle_refuted : exists t a (m n : mat * vec) s g, shapely_everywhere t a (there t a) dots /\ models_everywhere t a (there t a) puck (puck_there t a) /\ puck_there t a m n /\ CollModel.g_m g = CollModel.Inf /\
  ~ puck_there t a (fst (resolve_collision_with_environment dots puck tt 0 1 m s g 0)) (fst (resolve_collision_with_environment dots puck tt 0 1 n (there t a s) g 0)).
Proof. exact C138_obstacle_refuted_pf. Qed.
Print Assumptions C138_obstacle_refuted.

(** Two cars, one behind the other and faster, and the same two cars anywhere else: they meet the hypotheses, and after one second they are close enough to collide. *)
Example C138_ex : forall t a, library_everywhere t a (blob_library) /\ company_everywhere t a stubborn stubborn eq eq eq eq eq eq /\
  ctx_match (moved_world t a blob_library stubborn stubborn 0 eq eq eq eq eq eq) (fun p => p) 0%Qc (two_sedans (sedan 0 10) (sedan 10 2)) (two_sedans (sedan_there t a 0 10) (sedan_there t a 10 2)) /\
  SimulatorModel.intersects street (SimulatorModel.footprint street (sedan 10 10)) (SimulatorModel.footprint street (sedan 12 2)) = true.
Proof.
  intros t a. split; [apply blobs_everywhere|]. split; [apply stubborn_everywhere|]. split.
  - unfold ctx_match, dicts, times. cbn -[qz]. rewrite !Qcplus_0_r.
    repeat match goal with |- _ /\ _ => split | |- _ = _ => reflexivity | |- Forall2 _ [] [] => constructor | |- Forall2 _ (_ :: _) _ => constructor | |- True => exact I | |- pairs_of _ _ _ _ => split; cbn [fst snd] | |- model_there _ _ _ _ => apply sedan_moved end.
  - assert (P : forall x v, get_pose (sedan x v) = Ok (SE2_from_translation_angle (x, 0) 0)) by reflexivity.
    cbn -[get_footprint]. cbn -[get_pose]. rewrite !P. cbn -[SE2_from_translation_angle near_by]. unfold near_by, SE2_from_translation_angle. cbn [m00 m01 m02 m10 m11 m12 fst snd]. rewrite cos_0, sin_0.
    destruct (Rlt_dec _ 5) as [_|B]; [reflexivity|exfalso; apply B]. match goal with |- vnorm ?z < 5 => replace z with ((- 2, 0) : vec) by (unfold vsub; cbn [fst snd]; apply f_equal2; field) end.
    unfold vnorm, vdot. cbn [fst snd]. replace (-2 * -2 + 0 * 0) with (2 * 2) by ring. rewrite sqrt_square; lra.
Qed.
