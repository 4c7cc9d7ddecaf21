(* Generated from tools/Data.src by tools/gen_props.py. *)
(** Properties of states, commands and velocities. *)
From Coq Require Import Reals Lra List Bool String Arith Lia.
From Verif Require Import Base R2 DataModel DataSpec DataProofs.
Import ListNotations.
Open Scope string_scope.
From Verif Require Import DataMain.

(** ** C53 *)

(** Every state and command, except spacecraft commands and commands with lights, comes
    back from its array. *)
Theorem C53_round_trip : forall c o, In c all_classes -> c_name c <> "VehicleCommands" -> c_name c <> "SpacecraftCommands" -> instance_of c o ->
  exists z, as_ndarray c o = Ok z /\ List.length z = List.length (c_fields c) /\ from_array c z = Ok o.
Proof. exact C53_round_trip_pf. Qed.
Print Assumptions C53_round_trip.

Example C53_ex : exists o, instance_of cVehicleStateDyn o /\ as_ndarray cVehicleStateDyn o = Ok [1; 2; 3; 4; 5; 6; 7]%R /\ getattr o "delta" = Ok (Num 7) /\ from_array cVehicleStateDyn [1; 2; 3; 4; 5; 6; 7]%R = Ok o.
Proof.
  exists (mk cVehicleStateDyn [1; 2; 3; 4; 7; 5; 6]%R). split; [apply inst_mk; [nolights| reflexivity]|]. repeat split; reflexivity.
Qed.

(** Every array of the right length is the array of a state. *)
Theorem C53_array_round_trip : forall c z, In c all_classes -> c_name c <> "VehicleCommands" -> c_name c <> "SpacecraftCommands" -> List.length z = List.length (c_fields c) ->
  exists o, from_array c z = Ok o /\ instance_of c o /\ as_ndarray c o = Ok z.
Proof. exact C53_array_round_trip_pf. Qed.
Print Assumptions C53_array_round_trip.

(** Acceleration and steering rate of vehicle commands survive; the lights are replaced
    by no lights. *)
Theorem C53_vehicle_commands_partial : forall o, instance_of cVehicleCommands o ->
  exists z o', as_ndarray cVehicleCommands o = Ok z /\ List.length z = 2%nat /\ from_array cVehicleCommands z = Ok o' /\ instance_of cVehicleCommands o' /\
  getattr o' "acc" = getattr o "acc" /\ getattr o' "ddelta" = getattr o "ddelta" /\ getattr o' "lights" = Ok (Lights "none").
Proof. exact C53_vehicle_commands_partial_pf. Qed.
Print Assumptions C53_vehicle_commands_partial.

Theorem C53_lights_refuted : exists o z o', instance_of cVehicleCommands o /\ as_ndarray cVehicleCommands o = Ok z /\ from_array cVehicleCommands z = Ok o' /\ o' <> o.
Proof. exact C53_lights_refuted_pf. Qed.
Print Assumptions C53_lights_refuted.

(** No spacecraft command can be made from an array. *)
Theorem C53_spacecraft_refuted : (forall z, exists e, from_array cSpacecraftCommands z = Err e) /\
  exists o z, instance_of cSpacecraftCommands o /\ as_ndarray cSpacecraftCommands o = Ok z /\ from_array cSpacecraftCommands z = Err PyKeyError.
Proof. exact C53_spacecraft_refuted_pf. Qed.
Print Assumptions C53_spacecraft_refuted.

(** The constructor gives every field the value passed for it, or else its default; an
    unknown field and a missing one without default are errors. *)
Theorem C53_construct : forall c kw,
  (forall o, construct c kw = Ok o -> forall f, In f (c_fields c) -> exists v, getattr o f = Ok v /\ (aget String.eqb kw f = Some v \/ (aget String.eqb kw f = None /\ aget String.eqb (c_defaults c) f = Some v))) /\
  (forall k v, In (k, v) kw -> ~ In k (c_fields c) -> construct c kw = Err PyTypeError) /\
  (forall f, In f (c_fields c) -> aget String.eqb kw f = None -> aget String.eqb (c_defaults c) f = None -> construct c kw = Err PyTypeError).
Proof. exact C53_construct_pf. Qed.
Print Assumptions C53_construct.

(** Arrays of the wrong length are rejected. *)
Theorem C53_wrong_length : forall c z, In c all_classes -> List.length z <> List.length (numeric c) -> from_array c z = Err PyAssertionError.
Proof. exact C53_wrong_length_pf. Qed.
Print Assumptions C53_wrong_length.

(** The first three numbers of the array of a state are its position and heading,
    the indices in [idx] being those of the array. *)
Theorem C53_layout : forall c o z, In c all_classes -> instance_of c o -> as_ndarray c o = Ok z ->
  List.length z = List.length (numeric c) /\ (forall f i, In (f, i) (c_idx c) -> exists r, nth_error z i = Some r /\ has o f r) /\
  (In c state_classes -> exists x y psi, firstn 3 z = [x; y; psi] /\ has o "x" x /\ has o "y" y /\ has o "psi" psi).
Proof. exact C53_layout_pf. Qed.
Print Assumptions C53_layout.

(** ** C54 *)

(** Two objects of a class are equal as soon as they have the same numbers and the
    same lights. *)
Theorem C54_extensional : forall c a b, In c all_classes -> instance_of c a -> instance_of c b -> (forall f, In f (c_fields c) -> getattr a f = getattr b f) -> a = b.
Proof. exact C54_extensional_pf. Qed.
Print Assumptions C54_extensional.

(** Addition adds every component; the lights are those of the left operand. *)
Theorem C54_add : forall c a b, In c all_classes -> instance_of c a -> instance_of c b ->
  exists s, o_add c a b = Ok s /\ instance_of c s /\ (forall f x y, In f (numeric c) -> has a f x -> has b f y -> has s f (x + y)) /\
  (In "lights" (c_fields c) -> getattr s "lights" = getattr a "lights").
Proof. exact C54_add_pf. Qed.
Print Assumptions C54_add.

(** Multiplication by a scalar multiplies every component. *)
Theorem C54_scale : forall c a k, In c all_classes -> instance_of c a ->
  exists s, o_mul c a k = Ok s /\ instance_of c s /\ (forall f x, In f (numeric c) -> has a f x -> has s f (x * k)) /\
  (In "lights" (c_fields c) -> getattr s "lights" = getattr a "lights").
Proof. exact C54_scale_pf. Qed.
Print Assumptions C54_scale.

Theorem C54_sub : forall c a b, In c all_classes -> instance_of c a -> instance_of c b ->
  exists s, o_sub c a b = Ok s /\ instance_of c s /\ (forall f x y, In f (numeric c) -> has a f x -> has b f y -> has s f (x - y)).
Proof. exact C54_sub_pf. Qed.
Print Assumptions C54_sub.

(** Dividing divides every component, and by zero is a ZeroDivisionError. *)
Theorem C54_div : forall c a k, In c all_classes -> instance_of c a ->
  (k = 0%R -> o_div c a k = Err PyZeroDivisionError) /\
  (k <> 0%R -> exists s, o_div c a k = Ok s /\ instance_of c s /\ forall f x, In f (numeric c) -> has a f x -> has s f (x / k)).
Proof. exact C54_div_pf. Qed.
Print Assumptions C54_div.

(** Operands of different types are refused, whatever they are. *)
Theorem C54_other_type : forall c a b, o_cls a <> o_cls b -> o_add c a b = Err PyOther /\ o_radd c a b = Err PyOther.
Proof. exact C54_other_type_pf. Qed.
Print Assumptions C54_other_type.

(** A state plus a command is such a case. *)
Example C54_other_type_ex : o_add cPedestrianState (mk cPedestrianState [1; 2; 3; 4; 5; 6]%R) (mk cPedestrianCommands [1; 2]%R) = Err PyOther.
Proof. apply C54_other_type. discriminate. Qed.

(** x + y = y + x. *)
Theorem C54_comm : forall c a b, In c all_classes -> instance_of c a -> instance_of c b -> same_lights c a b -> o_add c a b = o_add c b a.
Proof. exact C54_comm_pf. Qed.
Print Assumptions C54_comm.

(** (x + y) + z = x + (y + z). *)
Theorem C54_assoc : forall c a b d, In c all_classes -> instance_of c a -> instance_of c b -> instance_of c d ->
  exists ab bd s, o_add c a b = Ok ab /\ o_add c b d = Ok bd /\ o_add c ab d = Ok s /\ o_add c a bd = Ok s.
Proof. exact C54_assoc_pf. Qed.
Print Assumptions C54_assoc.

(** x - x has only zeros, and adding it to any y changes nothing. *)
Theorem C54_zero : forall c a b, In c all_classes -> instance_of c a -> instance_of c b ->
  exists z, o_sub c a a = Ok z /\ instance_of c z /\ (forall f, In f (numeric c) -> has z f 0) /\ o_add c b z = Ok b.
Proof. exact C54_zero_pf. Qed.
Print Assumptions C54_zero.

(** k (x + y) = k x + k y and (k + l) x = k x + l x and (k l) x = k (l x) and 1 x = x. *)
Theorem C54_distr : forall c a b k l, In c all_classes -> instance_of c a -> instance_of c b ->
  (exists ab ka kb s, o_add c a b = Ok ab /\ o_mul c a k = Ok ka /\ o_mul c b k = Ok kb /\ o_mul c ab k = Ok s /\ o_add c ka kb = Ok s) /\
  (exists ka la s, o_mul c a k = Ok ka /\ o_mul c a l = Ok la /\ o_add c ka la = Ok s /\ o_mul c a (k + l) = Ok s) /\
  (exists la s, o_mul c a l = Ok la /\ o_mul c la k = Ok s /\ o_mul c a (k * l) = Ok s) /\
  o_mul c a 1 = Ok a.
Proof. exact C54_distr_pf. Qed.
Print Assumptions C54_distr.

(** s * x = x * s, except for the state of the dynamic vehicle. *)
Theorem C54_scalar_left : forall c a k, In c all_classes -> c_name c <> "VehicleStateDyn" -> o_rmul c k a = o_mul c a k.
Proof. exact C54_scalar_left_pf. Qed.
Print Assumptions C54_scalar_left.

(** For which 2 * x is not x * 2: the lateral and rotational velocities are not
    multiplied. *)
Theorem C54_scalar_left_refuted : exists a s t, instance_of cVehicleStateDyn a /\ o_mul cVehicleStateDyn a 2 = Ok s /\ o_rmul cVehicleStateDyn 2 a = Ok t /\ has s "vy" 2 /\ has t "vy" 1.
Proof. exact C54_scalar_left_refuted_pf. Qed.
Print Assumptions C54_scalar_left_refuted.

(** What s * x is for that class, for every state. *)
Theorem C54_scalar_left_dyn_partial : forall a k, instance_of cVehicleStateDyn a -> exists s, o_rmul cVehicleStateDyn k a = Ok s /\ instance_of cVehicleStateDyn s /\
  (forall f x, In f ["x"; "y"; "psi"; "vx"; "delta"] -> has a f x -> has s f (x * k)) /\ (forall f x, In f ["vy"; "dpsi"] -> has a f x -> has s f x).
Proof. exact C54_scalar_left_dyn_partial_pf. Qed.
Print Assumptions C54_scalar_left_dyn_partial.

Example C54_ex : exists s, In cRocketState all_classes /\ o_add cRocketState (mk cRocketState [1; 2; 3; 4; 5; 6; 7; 8]%R) (mk cRocketState [1; 1; 1; 1; 1; 1; 1; 1]%R) = Ok s /\ has s "m" (8 + 1) /\
  instance_of cRocketState (mk cRocketState [1; 2; 3; 4; 5; 6; 7; 8]%R).
Proof. eexists. split; [cbn; tauto|]. split; [reflexivity|]. split; [reflexivity|]. apply inst_mk; [nolights| reflexivity]. Qed.

(** The kinematic part of the dynamic vehicle's state. *)
Theorem C54_to_vehicle_state : forall a, instance_of cVehicleStateDyn a -> exists s, to_vehicle_state a = Ok s /\ instance_of cVehicleState s /\ forall f, In f (c_fields cVehicleState) -> getattr s f = getattr a f.
Proof. exact C54_to_vehicle_state_pf. Qed.
Print Assumptions C54_to_vehicle_state.

(** ** C55 *)

(** Spacecraft, dynamic obstacles, rockets and spaceships read back the velocity that
    was set, in either frame, and nothing else changes. *)
Theorem C55_set_get : forall k w l st v om fr, honest k -> instance_of (state_class k) st ->
  exists st', set_velocity k st v om fr = Ok st' /\ instance_of (state_class k) st' /\ get_velocity k w l st' fr = Ok (v, om) /\
  forall f, ~ In f ["vx"; "vy"; "dpsi"] -> getattr st' f = getattr st f.
Proof. exact C55_set_get_pf. Qed.
Print Assumptions C55_set_get.

Example C55_ex : honest KRocket /\ exists st', set_velocity KRocket (mk cRocketState [1; 2; 3; 4; 5; 6; 7; 8]%R) (1, 2)%R 3 false = Ok st' /\ get_velocity KRocket 0 0 st' false = Ok ((1, 2), 3)%R.
Proof.
  split; [unfold honest; tauto|]. destruct (C55_set_get KRocket 0 0 (mk cRocketState [1; 2; 3; 4; 5; 6; 7; 8]%R) (1, 2)%R 3 false) as (st' & H & _ & G & _).
  - unfold honest. tauto.
  - apply inst_mk; [nolights| reflexivity].
  - exists st'. split; assumption.
Qed.

(** The kinematic vehicle keeps only the forward component: in its own frame the forward
    speed is read back, the rest is determined by the steering angle. *)
Theorem C55_vehicle_partial : forall w l st v om, instance_of cVehicleState st ->
  exists st' d, set_velocity KVehicle st v om true = Ok st' /\ instance_of cVehicleState st' /\ has st "delta" d /\
  get_velocity KVehicle w l st' true = Ok ((fst v, fst v * tan d / w * l), fst v * tan d / w)%R /\ forall f, f <> "vx" -> getattr st' f = getattr st f.
Proof. exact C55_vehicle_partial_pf. Qed.
Print Assumptions C55_vehicle_partial.

(** A vehicle, pushed sideways and rotating after a crash, forgets both. *)
Theorem C55_vehicle_refuted : exists st st' vel, instance_of cVehicleState st /\ set_velocity KVehicle st (1, 2)%R 3 true = Ok st' /\ get_velocity KVehicle 2 1 st' true = Ok vel /\
  vel = ((1, 0), 0)%R.
Proof. exact C55_vehicle_refuted_pf. Qed.
Print Assumptions C55_vehicle_refuted.

(** The dynamic vehicle ignores the rotation for every state: what is written is
    an attribute no one reads, and it is lost at the next operation on the state. *)
Theorem C55_vehicle_dyn_partial : forall w l st v om fr, instance_of cVehicleStateDyn st ->
  exists st' d, set_velocity KVehicleDyn st v om fr = Ok st' /\ has st "dpsi" d /\ has st' "dtheta" om /\ get_velocity KVehicleDyn w l st' fr = Ok (v, d) /\
  (forall k s, o_mul cVehicleStateDyn st' k = Ok s -> getattr s "dtheta" = Err PyAttributeError).
Proof. exact C55_vehicle_dyn_partial_pf. Qed.
Print Assumptions C55_vehicle_dyn_partial.

Theorem C55_vehicle_dyn_refuted : exists st st', instance_of cVehicleStateDyn st /\ set_velocity KVehicleDyn st (1, 2)%R 3 true = Ok st' /\ get_velocity KVehicleDyn 2 1 st' true = Ok ((1, 2), 0)%R /\
  ~ instance_of cVehicleStateDyn st'.
Proof. exact C55_vehicle_dyn_refuted_pf. Qed.
Print Assumptions C55_vehicle_dyn_refuted.

(** The pedestrian moves forward at the speed it was told to rotate with, and keeps
    its old rotation. *)
Theorem C55_pedestrian_refuted : exists st, instance_of cPedestrianState st /\ forall w l v om, exists st' d, set_velocity KPedestrian st v om true = Ok st' /\
  has st "dpsi" d /\ get_velocity KPedestrian w l st' true = Ok ((om, snd v), d).
Proof. exact C55_pedestrian_refuted_pf. Qed.
Print Assumptions C55_pedestrian_refuted.

(** The differential drive reports no velocity whatever was set. *)
Theorem C55_diff_drive_refuted : forall w l st v om fr, exists st', set_velocity KDiffDrive st v om fr = Ok st' /\ st' = st /\ get_velocity KDiffDrive w l st' fr = Ok ((0, 0), 0)%R.
Proof. exact C55_diff_drive_refuted_pf. Qed.
Print Assumptions C55_diff_drive_refuted.

(** Reading the pose never fails on a state of any model, and depends only on position
    and heading; so setting a velocity does not move a model. *)
Theorem C55_pose_kept : forall k st v om fr st', instance_of (state_class k) st -> set_velocity k st v om fr = Ok st' ->
  exists x y th, has st "x" x /\ has st "y" y /\ has st "psi" th /\ extract_pose_from_state st = Ok ((x, y), th) /\ extract_pose_from_state st' = Ok ((x, y), th).
Proof. exact C55_pose_kept_pf. Qed.
Print Assumptions C55_pose_kept.
