(* Generated from tools/Impact.src by tools/gen_props.py. *)
(** Collisions of models. *)
From Coq Require Import String Reals List Bool Arith Lra Lia Psatz.
From Verif Require Import Base R2 GeoModel DataModel DataSpec DataProofs DataMain LaneModel BodyModel BodySpec BodyMain DynModel DrawModel CollModel CollSpec CollProofs CollMain BuildModel BuildSpec BuildMain ImpactModel ImpactSpec.
Import ListNotations.
Open Scope R_scope.
Local Arguments aget {K V} eqb d k : simpl nomatch.
Local Arguments aset {K V} eqb d k v : simpl nomatch.
From Verif Require Import ImpactMain.

(** ** C119  Free bodies *)

(** When two spacecraft, rockets, spaceships or obstacles collide, the velocities that the
    models have afterwards obey the law of restitution at the point of impact and
    conserve momentum and angular momentum, and no energy is gained; nothing else of
    the models changes. *)
Theorem C119_free : forall union quad valid middle sh a b ms sc t ms' rep n P ma mb ma' mb' m1 i1 e1 m2 i2 e2 va wa vb wb ca pa cb pb,
  crash union quad valid middle sh a b ms sc t ms' rep n P ma mb ma' mb' -> weighs ma m1 i1 e1 -> weighs mb m2 i2 e2 -> moves ma va wa -> moves mb vb wb -> stands ma ca pa -> stands mb cb pb ->
  honest (mo_kind ma) -> honest (mo_kind mb) ->
  exists va' wa' vb' wb', moves ma' va' wa' /\ moves mb' vb' wb' /\ stays ma ma' /\ stays mb mb' /\
    restitution (Rmin e1 e2) n P ca va va' cb vb vb' wa wa' wb wb' /\ same_momentum m1 m2 va va' vb vb' /\ same_spin m1 i1 m2 i2 ca va va' cb vb vb' wa wa' wb wb' /\
    (0 <= e1 <= 1 -> 0 <= e2 <= 1 -> no_more_energy m1 i1 m2 i2 va va' vb vb' wa wa' wb wb').
Proof. exact C119_free_pf. Qed.
Print Assumptions C119_free.

(** Then they are separating: the same collision is not resolved again. *)
Theorem C119_once : forall union quad valid middle sh a b ms sc t ms' rep n P ma mb ma' mb' m1 i1 e1 m2 i2 e2 va wa vb wb ca pa cb pb,
  crash union quad valid middle sh a b ms sc t ms' rep n P ma mb ma' mb' -> weighs ma m1 i1 e1 -> weighs mb m2 i2 e2 -> moves ma va wa -> moves mb vb wb -> stands ma ca pa -> stands mb cb pb ->
  honest (mo_kind ma) -> honest (mo_kind mb) -> 0 < e1 -> 0 < e2 -> vdot (vsub (contact va wa ca P) (contact vb wb cb P)) n <> 0 ->
  forall sc' t', resolve_collision sh (seen union quad valid middle) a b ms' sc' t' = (ms', Ok None).
Proof. exact C119_once_pf. Qed.
Print Assumptions C119_once.

(** Against a static obstacle a free body bounces off with the smaller restitution, and
    loses energy. *)
Theorem C119_wall : forall union quad valid middle sh ew env a m bs gb t m' rep n P m1 i1 e1 va wa ca pa,
  crash_env union quad valid middle sh ew env a m bs gb t m' rep n P -> weighs m m1 i1 e1 -> moves m va wa -> stands m ca pa -> honest (mo_kind m) ->
  exists va' wa', moves m' va' wa' /\ stays m m' /\ vdot (contact va' wa' ca P) n = - Rmin e1 (ge_e gb) * vdot (contact va wa ca P) n /\
    (0 <= e1 <= 1 -> 0 <= ge_e gb <= 1 -> energy m1 i1 va' wa' <= energy m1 i1 va wa).
Proof. exact C119_wall_pf. Qed.
Print Assumptions C119_wall.

(** ** C120  Vehicles *)

(** After a collision a vehicle (bicycle model) is where it was, with the same steering,
    and rolls with the part along its heading of the velocity that is reported for it. *)
Theorem C120_vehicle : forall union quad valid middle sh a b ms sc t ms' rep n P ma mb ma' mb' m1 i1 e1 m2 i2 e2 va wa vb wb ca pa cb pb,
  crash union quad valid middle sh a b ms sc t ms' rep n P ma mb ma' mb' -> weighs ma m1 i1 e1 -> weighs mb m2 i2 e2 -> moves ma va wa -> moves mb vb wb -> stands ma ca pa -> stands mb cb pb ->
  exists va' wa' vb' wb', afterwards rep a va' wa' /\ afterwards rep b vb' wb' /\
    (mo_kind ma = KVehicle -> forall d, has (mo_state ma) "delta" d -> rolls ma ma' pa d va') /\ (mo_kind mb = KVehicle -> forall d, has (mo_state mb) "delta" d -> rolls mb mb' pb d vb').
Proof. exact C120_vehicle_pf. Qed.
Print Assumptions C120_vehicle.

(** With free bodies and vehicles with straight wheels no energy is gained. *)
Theorem C120_energy_partial : forall union quad valid middle sh a b ms sc t ms' rep n P ma mb ma' mb' m1 i1 e1 m2 i2 e2 va wa vb wb ca pa cb pb,
  crash union quad valid middle sh a b ms sc t ms' rep n P ma mb ma' mb' -> weighs ma m1 i1 e1 -> weighs mb m2 i2 e2 -> moves ma va wa -> moves mb vb wb -> stands ma ca pa -> stands mb cb pb ->
  honest (mo_kind ma) \/ straight ma -> honest (mo_kind mb) \/ straight mb -> 0 <= e1 <= 1 -> 0 <= e2 <= 1 ->
  exists va' wa' vb' wb', moves ma' va' wa' /\ moves mb' vb' wb' /\ no_more_energy m1 i1 m2 i2 va va' vb vb' wa wa' wb wb'.
Proof. exact C120_energy_partial_pf. Qed.
Print Assumptions C120_energy_partial.

(** Against a static obstacle. *)
Theorem C120_wall : forall union quad valid middle sh ew env a m bs gb t m' rep n P m1 i1 e1 va wa ca pa d,
  crash_env union quad valid middle sh ew env a m bs gb t m' rep n P -> weighs m m1 i1 e1 -> moves m va wa -> stands m ca pa -> mo_kind m = KVehicle -> has (mo_state m) "delta" d ->
  exists va' wa', afterwards rep a va' wa' /\ rolls m m' pa d va'.
Proof. exact C120_wall_pf. Qed.
Print Assumptions C120_wall.

(** Hitting it head-on with straight wheels, a vehicle rolls back with the smaller
    restitution times its speed. *)
Theorem C120_head_on_partial : forall union quad valid middle sh ew env a m bs gb t m' rep n P m1 i1 e1 ca pa u s,
  crash_env union quad valid middle sh ew env a m bs gb t m' rep n P -> weighs m m1 i1 e1 -> stands m ca pa -> straight m -> has (mo_state m) "vx" u ->
  n = vscale s (cos pa, sin pa) -> vcross (vsub P ca) n = 0 -> stays m m' /\ has (mo_state m') "vx" (- Rmin e1 (ge_e gb) * u).
Proof. exact C120_head_on_partial_pf. Qed.
Print Assumptions C120_head_on_partial.

(** *** Collisions that happen *)

(** A parked car that is hit from the side by a block of its own weight does not move at
    all: momentum is lost, and the block goes on into the car. *)
Theorem C120_sideways_refuted : exists sh ms ms' rep n P car block car' block' e vb vb' cb,
  (exists x0, default_model Car x0 = Ok car) /\ crash joined_points 16 any_shape mean_centroid sh 1 2 ms None 0 ms' rep n P car block car' block' /\ honest (mo_kind block) /\ weighs block 1300 1600 e /\
  weighs car 1300 1600 e /\ stands car (0, 0) (PI / 2) /\ stands block cb 0 /\ moves car (0, 0) 0 /\ moves block vb 0 /\ moves car' (0, 0) 0 /\ moves block' vb' 0 /\
  ~ same_momentum 1300 1300 (0, 0) (0, 0) vb vb' /\ approaching n P (0, 0) (0, 0) cb vb' 0 0.
Proof. exact C120_sideways_refuted_pf. Qed.
Print Assumptions C120_sideways_refuted.

(** A parked car with turned wheels that is hit from behind gains more energy than the
    block loses. *)
Theorem C120_energy_refuted : exists sh ms ms' rep n P car block car' block' e vb vb' va' wa',
  (exists x0, default_model Car x0 = Ok car) /\ crash joined_points 16 any_shape mean_centroid sh 1 2 ms None 0 ms' rep n P car block car' block' /\ honest (mo_kind block) /\ weighs block 13000 16000 e /\
  weighs car 1300 1600 e /\ 0 <= e <= 1 /\ stands car (0, 0) PI /\ has (mo_state car) "delta" (PI / 4) /\ moves car (0, 0) 0 /\ moves block vb 0 /\ moves car' va' wa' /\ moves block' vb' 0 /\
  ~ no_more_energy 1300 1600 13000 16000 (0, 0) va' vb vb' 0 wa' 0 0.
Proof. exact C120_energy_refuted_pf. Qed.
Print Assumptions C120_energy_refuted.

(** A car that drives with its corner into a wall goes on driving into it. *)
Theorem C120_corner_refuted : exists sh rep n P car car' va va',
  (exists x0, default_model Car x0 = Ok car) /\ crash_env joined_points 16 any_shape mean_centroid sh "everywhere" 0 1 car [] geo_default_static 0 car' rep n P /\ straight car /\ stands car (0, 0) 0 /\
  moves car va 0 /\ moves car' va' 0 /\ approaching n P (0, 0) va (0, 0) (0, 0) 0 0 /\ approaching n P (0, 0) va' (0, 0) (0, 0) 0 0.
Proof. exact C120_corner_refuted_pf. Qed.
Print Assumptions C120_corner_refuted.

Example C119_ex : exists ms' rep ma' mb', crash joined_points 16 any_shape mean_centroid (meets (35 / 100, 0) (1, 0) (4 / 10)) 1 2 [(1%nat, block 0 0 2 50 10 (1 / 2)); (2%nat, block (7 / 10) 0 (-1) 100 20 (3 / 4))] None 0 ms' rep (1, 0) (35 / 100, 0)
    (block 0 0 2 50 10 (1 / 2)) (block (7 / 10) 0 (-1) 100 20 (3 / 4)) ma' mb' /\
  honest (mo_kind (block 0 0 2 50 10 (1 / 2))) /\ weighs (block 0 0 2 50 10 (1 / 2)) 50 10 (1 / 2) /\ moves (block 0 0 2 50 10 (1 / 2)) (2, 0) 0 /\ stands (block 0 0 2 50 10 (1 / 2)) (0, 0) 0 /\
  exists m' rep', crash_env joined_points 16 any_shape mean_centroid (meets (35 / 100, 0) (1, 0) (4 / 10)) "everywhere" 0 1 (block 0 0 2 50 10 (1 / 2)) [] geo_default_static 0 m' rep' (1, 0) (35 / 100, 0).
Proof.
  destruct (a_block 0 0 2 50 10 (1 / 2)) as (Ha & Ia & Sa & Wa & Ma & xa & la & La); [lra|lra|]. destruct (a_block (7 / 10) 0 (-1) 100 20 (3 / 4)) as (Hb & Ib & Sb & Wb & Mb & xb & lb & Lb); [lra|lra|].
  assert (N1 : vdot ((1, 0) : vec) (1, 0) = 1) by (unfold vdot; cbn; lra).
  destruct (happens (35 / 100, 0) (1, 0) (4 / 10) _ _ _ _ _ _ _ _ _ _ _ _ _ _ N1 ltac:(lra) ltac:(unfold vdot; cbn; lra) Ia Ib Ma Mb Sa Sb La Lb) as (ms' & rep & na & nb & C); [unfold contact, vdot, vsub; cbn [fst snd]; lra|].
  exists ms', rep, na, nb. split; [exact C|]. do 4 (split; [assumption|]).
  exact (happens_wall (35 / 100, 0) (1, 0) (4 / 10) _ _ _ _ _ _ _ geo_default_static N1 ltac:(lra) ltac:(unfold vdot; cbn; lra) Ia Ma Sa La eq_refl eq_refl ltac:(unfold contact, vdot; cbn [fst snd]; lra)).
Qed.

(** A car that hits a wall head-on. *)
Example C120_ex : exists car car' rep, default_model Car (mk cVehicleState [0; 0; 0; 3; 0]) = Ok car /\ straight car /\ stands car (0, 0) 0 /\ has (mo_state car) "vx" 3 /\ weighs car 1300 1600 (5 / 10) /\
  crash_env joined_points 16 any_shape mean_centroid (meets (18 / 10, 0) (1, 0) (9 / 10)) "everywhere" 0 1 car [] geo_default_static 0 car' rep (1, 0) (18 / 10, 0) /\ has (mo_state car') "vx" (- (12 / 10)).
Proof.
  destruct (a_car 0 0 0 3 0) as (ma & E & K & G & St & Ia & Sa & D & VX & Wa & Ma & xa & la & La).
  assert (Ma' : moves ma (3, 0) 0). { unfold moves in *. rewrite Ma. f_equal. unfold in_world. cbn [fst snd]. rewrite tan_0, cos_0, sin_0. unfold Rdiv. repeat (apply pair_equal_spec; split); ring. }
  assert (N1 : vdot ((1, 0) : vec) (1, 0) = 1) by (unfold vdot; cbn; lra).
  destruct (happens_wall (18 / 10, 0) (1, 0) (9 / 10) ma (3, 0) 0 (0, 0) 0 la xa geo_default_static N1 ltac:(lra) ltac:(unfold vdot; cbn; lra) Ia Ma' Sa La eq_refl eq_refl) as (na & rep & C); [unfold contact, vdot; cbn [fst snd]; lra|].
  exists ma, na, rep. split; [exact E|]. split; [split; assumption|]. do 3 (split; [assumption|]). split; [exact C|].
  destruct (C120_head_on_partial _ _ _ _ _ _ _ _ _ _ _ _ _ _ _ _ _ _ _ _ 0 3 1 C Wa Sa (conj K D) VX) as [_ H]; [unfold vscale; cbn [fst snd]; rewrite cos_0, sin_0; apply pair_equal_spec; split; ring|unfold vcross, vsub; cbn; ring|].
  cbn [ge_e geo_default_static] in H. rewrite Rmin_right in H by lra. replace (- (12 / 10)) with (- (4 / 10) * 3) by field. exact H.
Qed.

(** ** C121  Dynamic vehicles, pedestrians and robots *)

(** Free bodies and dynamic vehicles have the velocity that is reported, so momentum is
    conserved; but a dynamic vehicle goes on turning as before. *)
Theorem C121_dynamic_partial : forall union quad valid middle sh a b ms sc t ms' rep n P ma mb ma' mb' m1 i1 e1 m2 i2 e2 va wa vb wb ca pa cb pb,
  crash union quad valid middle sh a b ms sc t ms' rep n P ma mb ma' mb' -> weighs ma m1 i1 e1 -> weighs mb m2 i2 e2 -> moves ma va wa -> moves mb vb wb -> stands ma ca pa -> stands mb cb pb ->
  honest (mo_kind ma) \/ mo_kind ma = KVehicleDyn -> honest (mo_kind mb) \/ mo_kind mb = KVehicleDyn ->
  exists va' wa' vb' wb' oa ob, afterwards rep a va' oa /\ afterwards rep b vb' ob /\ moves ma' va' wa' /\ moves mb' vb' wb' /\ stays ma ma' /\ stays mb mb' /\ same_momentum m1 m2 va va' vb vb' /\
    (honest (mo_kind ma) -> wa' = oa) /\ (honest (mo_kind mb) -> wb' = ob) /\ (mo_kind ma = KVehicleDyn -> wa' = wa) /\ (mo_kind mb = KVehicleDyn -> wb' = wb).
Proof. exact C121_dynamic_partial_pf. Qed.
Print Assumptions C121_dynamic_partial.

(** A parked dynamic car that is hit at a corner does not turn: angular momentum is lost. *)
Theorem C121_spin_refuted : exists sh ms ms' rep n P car block car' block' e vb va' vb' cb,
  (exists x0, default_model DynCar x0 = Ok car) /\ crash joined_points 16 any_shape mean_centroid sh 1 2 ms None 0 ms' rep n P car block car' block' /\ honest (mo_kind block) /\ weighs block 1300 1600 e /\
  weighs car 1300 1600 e /\ stands car (0, 0) 0 /\ stands block cb 0 /\ moves car (0, 0) 0 /\ moves block vb 0 /\ moves car' va' 0 /\ moves block' vb' 0 /\
  ~ same_spin 1300 1600 1300 1600 (0, 0) (0, 0) va' cb vb vb' 0 0 0 0.
Proof. exact C121_spin_refuted_pf. Qed.
Print Assumptions C121_spin_refuted.

(** A pedestrian walks on with the computed rotation rate as its forward speed: only the
    sideways part of the velocity is as reported. *)
Theorem C121_pedestrian : forall union quad valid middle sh a b ms sc t ms' rep n P ma mb ma' mb' m1 i1 e1 m2 i2 e2 va wa vb wb ca pa cb pb,
  crash union quad valid middle sh a b ms sc t ms' rep n P ma mb ma' mb' -> weighs ma m1 i1 e1 -> weighs mb m2 i2 e2 -> moves ma va wa -> moves mb vb wb -> stands ma ca pa -> stands mb cb pb ->
  exists va' wa' vb' wb', afterwards rep a va' wa' /\ afterwards rep b vb' wb' /\
    (mo_kind ma = KPedestrian -> moves ma' (in_world (0, 0) pa (wa', sideways pa va')) wa /\ stays ma ma') /\ (mo_kind mb = KPedestrian -> moves mb' (in_world (0, 0) pb (wb', sideways pb vb')) wb /\ stays mb mb').
Proof. exact C121_pedestrian_pf. Qed.
Print Assumptions C121_pedestrian.

(** A standing pedestrian that is hit from behind, in the middle, by a block of its own
    weight stays where it is. *)
Theorem C121_pedestrian_refuted : exists sh ms ms' rep n P ped block ped' block' e vb vb' cb,
  (exists x0, default_model Pedestrian x0 = Ok ped) /\ crash joined_points 16 any_shape mean_centroid sh 1 2 ms None 0 ms' rep n P ped block ped' block' /\ honest (mo_kind block) /\ weighs block 75 50 e /\
  weighs ped 75 50 e /\ stands ped (0, 0) PI /\ stands block cb 0 /\ moves ped (0, 0) 0 /\ moves block vb 0 /\ moves ped' (0, 0) 0 /\ moves block' vb' 0 /\
  ~ same_momentum 75 75 (0, 0) (0, 0) vb vb' /\ approaching n P (0, 0) (0, 0) cb vb' 0 0.
Proof. exact C121_pedestrian_refuted_pf. Qed.
Print Assumptions C121_pedestrian_refuted.

(** A differential drive robot counts as standing still, whatever its wheels do, and a
    collision changes nothing but its flag. *)
Theorem C121_diff_drive : forall union quad valid middle sh a b ms sc t ms' rep n P ma mb ma' mb',
  crash union quad valid middle sh a b ms sc t ms' rep n P ma mb ma' mb' ->
  (mo_kind ma = KDiffDrive -> moves ma (0, 0) 0 /\ moves ma' (0, 0) 0 /\ mo_state ma' = mo_state ma /\ mo_collided ma' = true) /\ (mo_kind mb = KDiffDrive -> moves mb (0, 0) 0 /\ moves mb' (0, 0) 0 /\ mo_state mb' = mo_state mb /\ mo_collided mb' = true).
Proof. exact C121_diff_drive_pf. Qed.
Print Assumptions C121_diff_drive.

Example C121_ex : exists car ms' rep car' mb', default_model DynCar (mk cVehicleStateDyn [0; 0; 0; 2; 0; 0; 0]) = Ok car /\ mo_kind car = KVehicleDyn /\ weighs car 1300 1600 (5 / 10) /\ stands car (0, 0) 0 /\ (exists v, moves car v 0) /\
  crash joined_points 16 any_shape mean_centroid (meets (18 / 10, 4 / 10) (1, 0) (4 / 10)) 1 2 [(1%nat, car); (2%nat, block (21 / 10) (4 / 10) (-1) 1300 1600 (5 / 10))] None 0 ms' rep (1, 0) (18 / 10, 4 / 10) car (block (21 / 10) (4 / 10) (-1) 1300 1600 (5 / 10)) car' mb'.
Proof.
  destruct (a_dyn_car 0 0 0 2) as (ma & E & K & Ia & Sa & Wa & Ma & xa & la & La).
  destruct (a_block (21 / 10) (4 / 10) (-1) 1300 1600 (5 / 10)) as (Hb & Ib & Sb & Wb & Mb & xb & lb & Lb); [lra|lra|].
  assert (N1 : vdot ((1, 0) : vec) (1, 0) = 1) by (unfold vdot; cbn; lra).
  destruct (happens (18 / 10, 4 / 10) (1, 0) (4 / 10) _ _ _ _ _ _ _ _ _ _ _ _ _ _ N1 ltac:(lra) ltac:(unfold vdot; cbn; lra) Ia Ib Ma Mb Sa Sb La Lb) as (ms' & rep & na & nb & C).
  { unfold contact, vdot, vsub, in_world. cbn [fst snd]. rewrite cos_0, sin_0. lra. }
  exists ma, ms', rep, na, nb. repeat (split; [assumption|]). split; [eexists; exact Ma|exact C].
Qed.
