(* Generated from tools/Place.src by tools/gen_props.py. *)
(** The same simulation somewhere else in the plane. *)
From Coq Require Import String Reals List Bool Arith QArith Qcanon Lra Lia.
From Verif Require Import Base Num R2 GeoModel DataModel LaneModel BodyModel DynModel DrawModel CollModel BuildModel ImpactModel LoopModel BodySpec DataSpec BuildSpec MoveSpec LoopSpec SeqModel SimulatorModel SimulatorSpec MorphSpec MorphMain ImpactMain LoopMain PlaceSpec PlaceProofs PlaceModels PlaceWorld.
Import ListNotations.
Open Scope R_scope.
Local Open Scope string_scope.

(** Turn everything by [a] and move it by [t].  A collision of two players is then resolved the same: each player gets the turned velocity, and the report is the report of the same collision there, with the same fault and the same energy; or the same exception is raised. *)
Lemma C138_collision_pf : forall t a Sh (h : Sh -> Sh) (sh : shapely Sh) M Loc (md : model_ops M Loc) (Rm : M -> M -> Prop) i j ms ns sc sc' time,
  shapely_everywhere t a h sh -> models_everywhere t a h md Rm -> models_there Rm ms ns -> map_there t a sc sc' ->
  models_there Rm (fst (resolve_collision sh md i j ms sc time)) (fst (resolve_collision sh md i j ns sc' time)) /\
  snd (resolve_collision sh md i j ns sc' time) = outcome_there t a h (snd (resolve_collision sh md i j ms sc time)).
Proof.
  intros t a Sh h sh M Loc md Rm i j ms ns sc sc' time E Em H Hs. pose proof (resolve_there t a h sh E md Rm Em i j ms ns sc sc' time H Hs) as Q.
  destruct (resolve_collision sh md i j ms sc time), (resolve_collision sh md i j ns sc' time). exact Q.
Qed.

(** So is a collision with a static obstacle, if the obstacle has infinite inertia. *)
Lemma C138_obstacle_pf : forall t a Sh (h : Sh -> Sh) (sh : shapely Sh) M Loc (md : model_ops M Loc) (Rm : M -> M -> Prop) everywhere env i m n s g time,
  shapely_everywhere t a h sh -> models_everywhere t a h md Rm -> Rm m n -> g_Iz g = CollModel.Inf ->
  Rm (fst (resolve_collision_with_environment sh md everywhere env i m s g time)) (fst (resolve_collision_with_environment sh md everywhere env i n (h s) g time)) /\
  snd (resolve_collision_with_environment sh md everywhere env i n (h s) g time) = outcome_there t a h (snd (resolve_collision_with_environment sh md everywhere env i m s g time)).
Proof.
  intros t a Sh h sh M Loc md Rm everywhere env i m n s g time E Em H Hg. pose proof (resolve_env_there t a h sh E md everywhere Rm Em env i m n s g time H Hg) as Q.
  destruct (resolve_collision_with_environment sh md everywhere env i m s g time), (resolve_collision_with_environment sh md everywhere env i n (h s) g time). exact Q.
Qed.

(** The models of the package, but rockets, are seen by the collision code where they are: footprint, mesh and pose are moved, velocities are turned, and velocities that are set are understood in the plane. *)
Lemma C138_models_pf : forall t a union quad valid middle, (forall r, valid (map (there t a) r) = valid r) -> (forall r, r <> [] -> middle (map (there t a) r) = there t a (middle r)) ->
  models_everywhere t a (map (there t a)) (seen union quad valid middle) (model_there t a).
Proof. exact seen_there. Qed.

(** They move the same, with any Runge-Kutta method, before and after collisions. *)
Lemma C138_update_pf : forall t a tab hs m n u dt, model_there t a m n -> both (model_there t a) (model_update (rk_array tab hs) m u dt) (model_update (rk_array tab hs) n u dt).
Proof.
  intros t a tab hs m n u dt H. pose proof (update_there t a tab hs m n u dt H) as U. unfold updated in U.
  destruct (model_update (rk_array tab hs) m u dt) as [m'|e]; [destruct U as (n' & -> & U); exact U|rewrite U; reflexivity].
Qed.

(** Complete runs.  If the agents, goals, sensors, maps and obstacles are moved with the models, the simulation there either raises the same exception or ends with the same commands, times and reports, and with the models and all the logged states moved. *)
Lemma C138_run_pf : forall t a L C C' env onA onG onS onE onI onC (c : ctx (sim_world L C env)) (d : ctx (sim_world L C' env)) fuel,
  library_everywhere t a L -> company_everywhere t a C C' onA onG onS onE onI onC ->
  ctx_match (moved_world t a L C C' env onA onG onS onE onI onC) (fun p => p) 0%Qc c d ->
  opt (both (fun s z => ctx_match (moved_world t a L C C' env onA onG onS onE onI onC) (fun p => p) 0%Qc (cx s) (cx z))) (run fuel new_simulator c) (run fuel new_simulator d).
Proof.
  intros t a L C C' env onA onG onS onE onI onC c d fuel HL HC H. apply C137_run_pf; [intros p q E; exact E| |exact H].
  apply moved_corresponds; assumption.
Qed.

(** The same after every number of iterations. *)
Lemma C138_after_pf : forall t a L C C' env onA onG onS onE onI onC (c : ctx (sim_world L C env)) (d : ctx (sim_world L C' env)) s0 k s,
  library_everywhere t a L -> company_everywhere t a C C' onA onG onS onE onI onC ->
  ctx_match (moved_world t a L C C' env onA onG onS onE onI onC) (fun p => p) 0%Qc c d -> init_run c new_simulator = Ok s0 -> after s0 k s ->
  exists z0 z, init_run d new_simulator = Ok z0 /\ after z0 k z /\ ctx_match (moved_world t a L C C' env onA onG onS onE onI onC) (fun p => p) 0%Qc (cx s) (cx z).
Proof.
  intros t a L C C' env onA onG onS onE onI onC c d s0 k s HL HC H. apply C137_after_pf; [intros p q E; exact E| |exact H].
  apply moved_corresponds; assumption.
Qed.

Lemma okv (x y x' y' : R) : x = x' -> y = y' -> @Ok (vec * R) ((x, y), 0) = Ok ((x', y'), 0).
Proof. intros -> ->. reflexivity. Qed.

(** Rockets are left out because they are inconsistent: they move with the velocity of their state as a velocity in the plane (C104_rocket), but the collision code is told that velocity turned by the heading.  A rocket that moves along x is seen moving along x; the same rocket turned by a quarter turn moves along y and is seen moving backwards along x. *)
Lemma C138_rocket_refuted_pf : exists m n x, mo_kind m = KRocket /\ mo_state m = st8_obj "RocketState" "phi" x /\ n = set_state m (st8_obj "RocketState" "phi" (rocket_at (0, 0) (PI / 2) x)) /\
  velocity m = Ok ((1, 0), 0) /\ velocity n = Ok ((- 1, 0), 0) /\ turn (PI / 2) (1, 0) = (0, 1).
Proof.
  exists (set_state burning (st8_obj "RocketState" "phi" (mk8 0 0 0 1 0 0 0 5))). eexists. exists (mk8 0 0 0 1 0 0 0 5).
  split; [reflexivity|]. split; [reflexivity|]. split; [reflexivity|].
  assert (Q : forall y, velocity (set_state burning (st8_obj "RocketState" "phi" y)) = Ok (rot (r_psi y) (r_vx y, r_vy y), r_dpsi y)) by reflexivity.
  split; [rewrite Q; unfold rot; cbn [fst snd r_psi r_vx r_vy r_dpsi]; rewrite cos_0, sin_0; apply okv; ring|].
  split.
  - etransitivity; [apply Q|]. unfold rocket_at, rot, turned. cbn [fst snd r_psi r_vx r_vy r_dpsi]. rewrite Rplus_0_l, cos_PI2, sin_PI2. apply okv; ring.
  - unfold turn, in_world. cbn [fst snd]. rewrite cos_PI2, sin_PI2. apply f_equal2; ring.
Qed.

(** Small shapes: points, of which any two are taken to meet. *)
Definition dots : shapely vec := mkShp (fun _ _ => false) (fun _ _ => true) (fun _ _ => true) (fun x => x) (fun _ _ => IOther) (fun _ _ => false) (fun _ => true) (fun x => Ok x).

Lemma dots_everywhere t a : shapely_everywhere t a (there t a) dots.
Proof. constructor; cbn; try reflexivity. intros x y _. split; reflexivity. Qed.

(** Small models: a pose and a velocity, of mass 1, that do not turn. *)
Definition puck : model_ops (Sh := vec) (mat * vec) unit :=
  mkMO (fun m => translation_from_SE2 (fst m)) (fun m => [(tt, translation_from_SE2 (fst m))]) (fun m => fst m) (fun m => (snd m, 0)) (fun _ => CollModel.mkG (CollModel.Fin 1) CollModel.Inf 1) (fun m => m) (fun m o => match o with Some (v, _) => (fst m, v) | None => m end).

Definition puck_there t a (m n : mat * vec) : Prop := n = (there_pose t a (fst m), turn a (snd m)).

Lemma puck_everywhere t a : models_everywhere t a (there t a) puck (puck_there t a).
Proof.
  constructor; cbn; try (intros m n ->; reflexivity).
  - intros m n ->. apply there_translation.
  - intros m n ->. cbn. rewrite there_translation. reflexivity.
  - intros m n [[v w]|] ->; reflexivity.
Qed.

Lemma puck_hits P n iz : translation_from_SE2 P = (0, 0) -> vdot n n = 1 ->
  let j := - (1 + 1) * 5 / (1 + 0 + (0 + over (vcross (1, 1) n * vcross (1, 1) n) iz)) in
  exists r, resolve_collision_with_environment dots puck tt 0 1 (P, vscale 5 n) (vscale 5 n) (CollModel.mkG CollModel.Inf iz 1) 0 = ((P, vadd (vscale 5 n) (vscale j n)), Ok (Some r)).
Proof.
  intros HP Hn j. unfold resolve_collision_with_environment, compute_impact_geometry. cbn [md_footprint puck fst snd dots CollModel.touches CollModel.contains CollModel.centroid md_velocity md_pose]. rewrite HP.
  assert (E : vsub (vscale 5 n) (0, 0) = vscale 5 n) by (unfold vsub, vscale; cbn; apply f_equal2; ring).
  assert (D : vdot (vscale 5 n) n = 5) by (transitivity (5 * vdot n n); [unfold vdot, vscale; cbn; ring|rewrite Hn; ring]).
  assert (L : vnorm (vscale 5 n) = 5). { unfold vnorm. replace (vdot (vscale 5 n) (vscale 5 n)) with (5 * 5) by (transitivity (25 * vdot n n); [rewrite Hn; ring|unfold vdot, vscale; cbn; ring]). apply sqrt_square. lra. }
  assert (N : normalize (vscale 5 n) = Some n). { unfold normalize. rewrite L. destruct (Req_EM_T 5 0) as [B|_]; [lra|]. f_equal. destruct n as [x y]. unfold vscale. cbn. apply f_equal2; field. }
  assert (V : velocity_of_P_given_A (vscale 5 n) 0 (vscale 5 n) = vscale 5 n) by (unfold velocity_of_P_given_A, vadd, vscale, rot90; cbn; apply f_equal2; ring).
  rewrite E, N, D. destruct (Rlt_dec 5 0) as [B|_]; [lra|]. cbn [fst snd]. rewrite ?HP, ?E, V, D. destruct (Rlt_dec 5 0) as [B|_]; [lra|].
  cbn [md_set_collided md_geometry puck md_set_velocity is_polygon dots CollModel.g_m CollModel.g_Iz CollModel.g_e impact_locations_from_polygons]. unfold impact_locations_from_polygons. cbn [md_mesh puck].
  eexists. cbn -[vdot vcross vscale vadd compute_impulse_response velocity_after_collision]. apply f_equal2; [|reflexivity]. apply f_equal2; [reflexivity|]. unfold velocity_after_collision. apply f_equal.
  unfold compute_impulse_response. rewrite D. cbn -[vdot vcross vscale Rplus Rmult Rdiv Rmin].
  replace (Rmin 1 1) with 1 by (unfold Rmin; destruct (Rle_dec 1 1); reflexivity). replace (1 / 1) with 1 by field. fold j. unfold vover, over, vscale. cbn [fst snd]. apply f_equal2; field.
Qed.

(** The condition on obstacles is needed.  For an obstacle with a finite moment of inertia, even one that cannot be pushed, the collision code takes the vector from the obstacle to the point of impact to be (1, 1) whatever the place and the direction of the impact: after a quarter turn of everything the same impact gives another speed. *)
Lemma C138_obstacle_refuted_pf : exists t a (m n : mat * vec) s g, shapely_everywhere t a (there t a) dots /\ models_everywhere t a (there t a) puck (puck_there t a) /\ puck_there t a m n /\ CollModel.g_m g = CollModel.Inf /\
  ~ puck_there t a (fst (resolve_collision_with_environment dots puck tt 0 1 m s g 0)) (fst (resolve_collision_with_environment dots puck tt 0 1 n (there t a s) g 0)).
Proof.
  pose (u := (3 / 5, 4 / 5)). pose (w := (- (4 / 5), 3 / 5)). pose (P := SE2_from_translation_angle (0, 0) 0). pose (g := CollModel.mkG CollModel.Inf (CollModel.Fin 1) 1).
  exists (0, 0), (PI / 2), (P, vscale 5 u), (there_pose (0, 0) (PI / 2) P, turn (PI / 2) (vscale 5 u)), (vscale 5 u), g.
  split; [apply dots_everywhere|]. split; [apply puck_everywhere|]. split; [reflexivity|]. split; [reflexivity|].
  assert (T : turn (PI / 2) (vscale 5 u) = vscale 5 w) by (unfold turn, in_world, vscale, u, w; cbn [fst snd]; rewrite cos_PI2, sin_PI2; apply f_equal2; field).
  change (there (0, 0) (PI / 2) (vscale 5 u)) with (turn (PI / 2) (vscale 5 u)). rewrite T.
  destruct (puck_hits P u (CollModel.Fin 1)) as (r1 & E1); [reflexivity|unfold vdot, u; cbn; field|].
  destruct (puck_hits (there_pose (0, 0) (PI / 2) P) w (CollModel.Fin 1)) as (r2 & E2); [rewrite there_translation; unfold there, in_world; cbn; apply f_equal2; ring|unfold vdot, w; cbn; field|].
  unfold g. rewrite E1, E2. cbn [fst]. unfold puck_there. cbn [fst snd]. intro B. apply (f_equal (fun z => snd (snd z))) in B. cbn [fst snd] in B. revert B.
  unfold turn, in_world, vadd, vscale, vcross, over, u, w. cbn [fst snd]. rewrite cos_PI2, sin_PI2. intro B.
  assert (X : forall k, - (1 + 1) * 5 / (1 + 0 + (0 + k / 1)) = - 10 / (1 + k)) by (intro k; replace (1 + 0 + (0 + k / 1)) with (1 + k) by field; replace (- (1 + 1) * 5) with (- 10) by ring; reflexivity).
  rewrite !X in B.
  replace (- 10 / (1 + (1 * (4 / 5) - 1 * (3 / 5)) * (1 * (4 / 5) - 1 * (3 / 5)))) with (- (125 / 13)) in B by field.
  replace (- 10 / (1 + (1 * (3 / 5) - 1 * - (4 / 5)) * (1 * (3 / 5) - 1 * - (4 / 5)))) with (- (125 / 37)) in B by field. lra.
Qed.

(** Shapes for the example of the simulator: two shapes meet when their first vertices are close. *)
Definition near_by (x y : list vec) : bool := match x, y with p :: _, q :: _ => if Rlt_dec (vnorm (vsub p q)) 5 then true else false | _, _ => false end.

Definition first_vertex (x : list vec) : vec := hd (0, 0) x.

Definition blobs : shapely (list vec) := mkShp (fun _ _ => false) near_by near_by first_vertex (fun _ _ => IOther) (fun _ _ => false) (fun _ => true) (fun x => Ok x).

Lemma near_by_there t a x y : near_by (map (there t a) x) (map (there t a) y) = near_by x y.
Proof. destruct x as [|p x], y as [|q y]; try reflexivity. cbn. rewrite there_sub, turn_norm. reflexivity. Qed.

Definition blob_library : library := mkLib joined_points 16 any_shape first_vertex blobs (fun f d y => rk_array ([[]], [1]) [d] f d y).

Lemma blobs_everywhere t a : library_everywhere t a blob_library.
Proof.
  constructor.
  - reflexivity.
  - intros [|p r] H; [contradiction|reflexivity].
  - constructor; cbn; try reflexivity; try apply near_by_there. intros x y [H|H]; [|contradiction]. destruct x as [|p x], y as [|q y]; try discriminate H. split; reflexivity.
  - exists ([[]], [1]), (fun d => [d]). reflexivity.
Qed.

Lemma stubborn_everywhere t a : company_everywhere t a stubborn stubborn eq eq eq eq eq eq.
Proof.
  constructor; cbn; try reflexivity.
  - intros x y _ _ _ _ _ _ _ _ -> _ _ _. reflexivity.
  - intros x y o o' -> _. split; reflexivity.
  - intros x y ->. split; reflexivity.
  - intros f f' _ _ o o' _ -> _ Ho. split; [reflexivity|exact Ho].
  - intros sc sc' ->. constructor.
Qed.

Definition sedan (x v : R) : model := mkModel KVehicle (vst_obj (mkV x 0 0 v 0)) "VehicleState" geo_default_car (PVehicle (mp_vlo (vp_m vp_rcar), mp_vhi (vp_m vp_rcar)) (mp_alo (vp_m vp_rcar), mp_ahi (vp_m vp_rcar)) (vp_dmax vp_rcar) (vp_ddmax vp_rcar)) [(-2, -1); (2, -1); (2, 1); (-2, 1); (-2, -1)] None false.

Definition sedan_there t a x v : model := set_state (sedan x v) (vst_obj (vst_at t a (mkV x 0 0 v 0))).

Lemma sedan_moved t a x v : model_there t a (sedan x v) (sedan_there t a x v).
Proof.
  split; [repeat split|]. split; [reflexivity|]. split; [|exists (mkV x 0 0 v 0); split; reflexivity].
  exists vg_car, vp_rcar. eexists. eexists. split; [reflexivity|]. split; [|split; reflexivity]. split; [reflexivity|]. split; [reflexivity|]. eexists. split; reflexivity.
Qed.

Definition street : world := sim_world blob_library stubborn 0.

Definition two_sedans (m1 m2 : model) : ctx street := mkCtx (W := street) (mkConfig (W := street) tt (mkParam (qz 1) (qz 1) (qz 3) (qz 0)) [] true 0%nat) [(1%nat, m1); (2%nat, m2)] [(1%nat, coast); (2%nat, coast)] [] [] (qz (-1)) false [] None.
