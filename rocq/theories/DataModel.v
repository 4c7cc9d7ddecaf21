(** Model of the state and command dataclasses of src/dg_commons/sim/models/ and of
    get_velocity / set_velocity of the models.  An object is its class and its
    attribute dictionary; numbers are reals. *)
From Coq Require Import Reals List Bool String Arith.
From Verif Require Import Base R2.
Import ListNotations.
Open Scope string_scope.

(** The value of an attribute: a number or another object (the lights).
    Used for the dataclasses of states and commands, e.g. vehicle.py:22-137. *)
Inductive pv := Num (r : R) | Lights (name : string).
Record obj := mkO { o_cls : string; o_dict : list (string * pv) }.

(** What the definition of a dataclass says:
    [c_fields] the fields, in order; [c_defaults] the defaults;
    [c_idx] the class attribute idx;
    [c_add], [c_mul] the fields listed in __add__ and __mul__;
    [c_radd], [c_rmul] those of the functions bound to __radd__ and __rmul__;
    [c_as] the fields of as_ndarray in order;
    [c_from] the fields set by from_array, each with the key looked up in idx.
    Used for [to_vehicle_state], vehicle_dynamic.py:70-71. *)
Record cls := mkCls {
  c_name : string; c_fields : list string; c_defaults : list (string * pv); c_idx : list (string * nat);
  c_add : list string; c_mul : list string; c_radd : list string; c_rmul : list string;
  c_as : list string; c_from : list (string * string) }.

(** Used for [to_vehicle_state], vehicle_dynamic.py:70-71; [get_full_velocity], vehicle_dynamic.py:202-209. *)
Definition bind {A B} (r : result A) (f : A -> result B) : result B := match r with Ok a => f a | Err e => Err e end.
Fixpoint mapM {A B} (f : A -> result B) (l : list A) : result (list B) :=
  match l with [] => Ok [] | x :: r => bind (f x) (fun y => bind (mapM f r) (fun ys => Ok (y :: ys))) end.

(** obj.name.  Used for [to_vehicle_state], vehicle_dynamic.py:70-71. *)
Definition getattr (o : obj) (f : string) : result pv := match aget String.eqb (o_dict o) f with Some v => Ok v | None => Err PyAttributeError end.
(** obj.name = v.  Used for [set_velocity], vehicle.py:252-260. *)
Definition setattr (o : obj) (f : string) (v : pv) : obj := mkO (o_cls o) (aset String.eqb (o_dict o) f v).

(** The constructor generated by dataclass, called with keywords: a missing argument
    takes its default or is a TypeError, as is an unknown one.
    Used for [to_vehicle_state], vehicle_dynamic.py:70-71. *)
Definition construct (c : cls) (kw : list (string * pv)) : result obj :=
  if forallb (fun k => existsb (String.eqb (fst k)) (c_fields c)) kw then
    bind (mapM (fun f => match aget String.eqb kw f with Some v => Ok (f, v) | None => match aget String.eqb (c_defaults c) f with Some v => Ok (f, v) | None => Err PyTypeError end end) (c_fields c)) (fun d =>
    Ok (mkO (c_name c) d))
  else Err PyTypeError.
(** dataclasses.replace(obj, **kw).
    Used wherever the code calls replace, e.g. simulator.py:120-122. *)
Definition dreplace (c : cls) (o : obj) (kw : list (string * pv)) : result obj :=
  bind (mapM (fun f => match aget String.eqb kw f with Some v => Ok (f, v) | None => bind (getattr o f) (fun v => Ok (f, v)) end) (c_fields c)) (fun kw' => construct c kw').

(** Arithmetic on attribute values; strings cannot be added to strings as numbers are,
    and are not in any of the tables below.
    Used for the operators of the classes, e.g. vehicle.py:37-54 and vehicle.py:89-120. *)
Definition pv_add (a b : pv) : result pv := match a, b with Num x, Num y => Ok (Num (x + y)) | _, _ => Err PyTypeError end.
Definition pv_mul (a : pv) (s : R) : result pv := match a with Num x => Ok (Num (x * s)) | _ => Err PyTypeError end.

(** The body of __add__ for the listed fields; NotImplementedError for operands of
    different types.  E.g. vehicle.py:37-41 and vehicle.py:89-100. *)
Definition add_body (c : cls) (fields : list string) (a b : obj) : result obj :=
  if String.eqb (o_cls a) (o_cls b) then
    bind (mapM (fun f => bind (getattr a f) (fun x => bind (getattr b f) (fun y => bind (pv_add x y) (fun z => Ok (f, z))))) fields) (fun kw => dreplace c a kw)
  else Err PyOther.
Definition mul_body (c : cls) (fields : list string) (a : obj) (s : R) : result obj :=
  bind (mapM (fun f => bind (getattr a f) (fun x => bind (pv_mul x s) (fun z => Ok (f, z)))) fields) (fun kw => dreplace c a kw).

(** a + b, both objects of class c.  E.g. vehicle.py:37-41 and vehicle.py:89-100. *)
Definition o_add (c : cls) (a b : obj) : result obj := add_body c (c_add c) a b.
(** a * s.  E.g. vehicle.py:48-49 and vehicle.py:107-115. *)
Definition o_mul (c : cls) (a : obj) (s : R) : result obj := mul_body c (c_mul c) a s.
(** s * a: float.__mul__ declines, __rmul__ of the class is called.
    E.g. vehicle.py:51 and vehicle.py:117. *)
Definition o_rmul (c : cls) (s : R) (a : obj) : result obj := mul_body c (c_rmul c) a s.
(** a - b : self + (other * -1.0) in every class.
    E.g. vehicle.py:45-46 and vehicle.py:104-105. *)
Definition o_sub (c : cls) (a b : obj) : result obj := bind (o_mul c b (-1)) (fun nb => o_add c a nb).
(** a / s : self * (1 / val) in every class.
    E.g. vehicle.py:53-54 and vehicle.py:119-120. *)
Definition o_div (c : cls) (a : obj) (s : R) : result obj := if Req_EM_T s 0 then Err PyZeroDivisionError else o_mul c a (1 / s).
(** x + a for an object [x] of another type that declines: __radd__ of the class.
    E.g. vehicle.py:43 and vehicle.py:102. *)
Definition o_radd (c : cls) (a other : obj) : result obj := add_body c (c_radd c) a other.

(** as_ndarray, e.g. vehicle.py:125-126. *)
Definition as_ndarray (c : cls) (a : obj) : result (list R) :=
  mapM (fun f => bind (getattr a f) (fun v => match v with Num x => Ok x | _ => Err PyValueError end)) (c_as c).
(** from_array on a one-dimensional array, e.g. vehicle.py:128-137. *)
Definition from_array (c : cls) (z : list R) : result obj :=
  if (List.length (c_idx c) =? List.length z)%nat then
    bind (mapM (fun fk => match aget String.eqb (c_idx c) (snd fk) with
                          | None => Err PyKeyError
                          | Some i => match nth_error z i with Some x => Ok (fst fk, Num x) | None => Err PyIndexError end
                          end) (c_from c)) (fun kw => construct c kw)
  else Err PyAssertionError.

(** Used for [cVehicleCommands], vehicle.py:22-62; [cVehicleState], vehicle.py:68-137. *)
Definition same (l : list string) : list (string * string) := map (fun f => (f, f)) l.

(** VehicleCommands, vehicle.py:22-62. *)
Definition cVehicleCommands := mkCls "VehicleCommands" ["acc"; "ddelta"; "lights"] [("lights", Lights "none")] [("acc", 0); ("ddelta", 1)]%nat
  ["acc"; "ddelta"] ["acc"; "ddelta"] ["acc"; "ddelta"] ["acc"; "ddelta"] ["acc"; "ddelta"] (same ["acc"; "ddelta"]).
(** VehicleState, vehicle.py:68-137. *)
Definition f5 := ["x"; "y"; "psi"; "vx"; "delta"].
Definition cVehicleState := mkCls "VehicleState" f5 [] [("x", 0); ("y", 1); ("psi", 2); ("vx", 3); ("delta", 4)]%nat f5 f5 f5 f5 f5 (same f5).
(** VehicleStateDyn, vehicle_dynamic.py:18-68: the fields vy and dpsi follow those
    of VehicleState; __radd__ and __rmul__ are inherited, hence VehicleState.__add__ and
    VehicleState.__mul__ (vehicle.py:102, 117). *)
Definition f7 := ["x"; "y"; "psi"; "vx"; "vy"; "dpsi"; "delta"].
Definition cVehicleStateDyn := mkCls "VehicleStateDyn" ["x"; "y"; "psi"; "vx"; "delta"; "vy"; "dpsi"] [("vy", Num 0); ("dpsi", Num 0)]
  [("x", 0); ("y", 1); ("psi", 2); ("vx", 3); ("vy", 4); ("dpsi", 5); ("delta", 6)]%nat f7 f7 f5 f5 f7 (same f7).
(** PedestrianCommands, pedestrian.py:39-77. *)
Definition fpc := ["acc"; "dpsi"].
Definition cPedestrianCommands := mkCls "PedestrianCommands" fpc [] [("acc", 0); ("dpsi", 1)]%nat fpc fpc fpc fpc fpc (same fpc).
(** PedestrianState, pedestrian.py:80-152. *)
Definition f6 := ["x"; "y"; "psi"; "vx"; "vy"; "dpsi"].
Definition i6 := [("x", 0); ("y", 1); ("psi", 2); ("vx", 3); ("vy", 4); ("dpsi", 5)]%nat.
Definition cPedestrianState := mkCls "PedestrianState" f6 [("vy", Num 0); ("dpsi", Num 0)] i6 f6 f6 f6 f6 f6 (same f6).
(** DiffDriveCommands, diff_drive.py:19-57. *)
Definition fdc := ["omega_l"; "omega_r"].
Definition cDiffDriveCommands := mkCls "DiffDriveCommands" fdc [] [("omega_l", 0); ("omega_r", 1)]%nat fdc fdc fdc fdc fdc (same fdc).
(** DiffDriveState, diff_drive.py:60-105. *)
Definition f3 := ["x"; "y"; "psi"].
Definition cDiffDriveState := mkCls "DiffDriveState" f3 [] [("x", 0); ("y", 1); ("psi", 2)]%nat f3 f3 f3 f3 f3 (same f3).
(** SpacecraftCommands, spacecraft.py:20-58: from_array looks up "acc_left " (with a
    space), spacecraft.py:58. *)
Definition fsc := ["acc_left"; "acc_right"].
Definition cSpacecraftCommands := mkCls "SpacecraftCommands" fsc [] [("acc_left", 0); ("acc_right", 1)]%nat fsc fsc fsc fsc fsc
  [("acc_left", "acc_left "); ("acc_right", "acc_right")].
(** SpacecraftState, spacecraft.py:61-133. *)
Definition cSpacecraftState := mkCls "SpacecraftState" f6 [] i6 f6 f6 f6 f6 f6 (same f6).
(** DynObstacleCommands, obstacles_dyn.py:20-65. *)
Definition foc := ["acc_x"; "acc_y"; "acc_psi"].
Definition cDynObstacleCommands := mkCls "DynObstacleCommands" foc [] [("acc_x", 0); ("acc_y", 1); ("acc_psi", 2)]%nat foc foc foc foc foc (same foc).
(** DynObstacleState, obstacles_dyn.py:68-140. *)
Definition cDynObstacleState := mkCls "DynObstacleState" f6 [] i6 f6 f6 f6 f6 f6 (same f6).
(** RocketCommands, rocket.py:22-68. *)
Definition frc := ["F_left"; "F_right"; "dphi"].
Definition cRocketCommands := mkCls "RocketCommands" frc [] [("F_left", 0); ("F_right", 1); ("dphi", 2)]%nat frc frc frc frc frc (same frc).
(** RocketState, rocket.py:71-153. *)
Definition f8r := ["x"; "y"; "psi"; "vx"; "vy"; "dpsi"; "phi"; "m"].
Definition cRocketState := mkCls "RocketState" f8r [] [("x", 0); ("y", 1); ("psi", 2); ("vx", 3); ("vy", 4); ("dpsi", 5); ("phi", 6); ("m", 7)]%nat f8r f8r f8r f8r f8r (same f8r).
(** SpaceshipCommands, spaceship.py:22-65. *)
Definition fssc := ["thrust"; "ddelta"].
Definition cSpaceshipCommands := mkCls "SpaceshipCommands" fssc [] [("thrust", 0); ("ddelta", 1)]%nat fssc fssc fssc fssc fssc (same fssc).
(** SpaceshipState, spaceship.py:68-150. *)
Definition f8s := ["x"; "y"; "psi"; "vx"; "vy"; "dpsi"; "delta"; "m"].
Definition cSpaceshipState := mkCls "SpaceshipState" f8s [] [("x", 0); ("y", 1); ("psi", 2); ("vx", 3); ("vy", 4); ("dpsi", 5); ("delta", 6); ("m", 7)]%nat f8s f8s f8s f8s f8s (same f8s).

(** All of them.  The classes of sim/models, e.g. vehicle.py:22-137. *)
Definition state_classes := [cVehicleState; cVehicleStateDyn; cPedestrianState; cDiffDriveState; cSpacecraftState; cDynObstacleState; cRocketState; cSpaceshipState].
Definition command_classes := [cVehicleCommands; cPedestrianCommands; cDiffDriveCommands; cSpacecraftCommands; cDynObstacleCommands; cRocketCommands; cSpaceshipCommands].

(** to_vehicle_state, vehicle_dynamic.py:70-71. *)
Definition to_vehicle_state (o : obj) : result obj :=
  bind (mapM (fun f => bind (getattr o f) (fun v => Ok (f, v))) f5) (fun kw => construct cVehicleState kw).

(** *** Velocities *)

Open Scope R_scope.
(** SO2_from_angle(theta) @ v, PyGeometry.
    Used for [get_full_velocity], vehicle_dynamic.py:202-209; [get_vehicle_velocity], vehicle.py:240-250. *)
Definition rot (theta : R) (v : vec) : vec := (cos theta * fst v - sin theta * snd v, sin theta * fst v + cos theta * snd v).
Definition getnum (o : obj) (f : string) : result R := bind (getattr o f) (fun v => match v with Num x => Ok x | _ => Err PyTypeError end).

(** Used for [get_velocity], diff_drive.py:199-201; [set_velocity], vehicle.py:252-260. *)
Inductive model_kind := KVehicle | KVehicleDyn | KPedestrian | KDiffDrive | KSpacecraft | KDynObstacle | KRocket | KSpaceship.
(** The class of the states of each model.
    Used for [stateactions_from_array], vehicle.py:169-178; [ivp_rates], vehicle.py:180-184. *)
Definition state_class (k : model_kind) : cls :=
  match k with KVehicle => cVehicleState | KVehicleDyn => cVehicleStateDyn | KPedestrian => cPedestrianState | KDiffDrive => cDiffDriveState
             | KSpacecraft => cSpacecraftState | KDynObstacle => cDynObstacleState | KRocket => cRocketState | KSpaceship => cSpaceshipState end.

(** get_velocity of the models with a full velocity in their state:
    vehicle_dynamic.py:202-209, pedestrian.py:235-244, spacecraft.py:230-240,
    obstacles_dyn.py:209-215, rocket.py:274-284, spaceship.py:267-277. *)
Definition get_full_velocity (st : obj) (in_model_frame : bool) : result (vec * R) :=
  bind (getnum st "vx") (fun vx => bind (getnum st "vy") (fun vy => bind (getnum st "dpsi") (fun dpsi =>
  if in_model_frame then Ok ((vx, vy), dpsi)
  else bind (getnum st "psi") (fun psi => Ok (rot psi (vx, vy), dpsi))))).
(** get_velocity, vehicle.py:240-250; tan is total in the model. *)
Definition get_vehicle_velocity (wheelbase lr : R) (st : obj) (in_model_frame : bool) : result (vec * R) :=
  bind (getnum st "vx") (fun vx => bind (getnum st "delta") (fun delta =>
  let dtheta := vx * tan delta / wheelbase in
  let vy := dtheta * lr in
  if in_model_frame then Ok ((vx, vy), dtheta)
  else bind (getnum st "psi") (fun psi => Ok (rot psi (vx, vy), dtheta)))).
(** get_velocity of every model; diff_drive.py:199-201. *)
Definition get_velocity (k : model_kind) (wheelbase lr : R) (st : obj) (in_model_frame : bool) : result (vec * R) :=
  match k with
  | KVehicle => get_vehicle_velocity wheelbase lr st in_model_frame
  | KDiffDrive => Ok ((0, 0), 0)
  | _ => get_full_velocity st in_model_frame
  end.

(** The velocity in the model frame: the common first lines of set_velocity.
    Used for [set_velocity], vehicle.py:252-260. *)
Definition to_model_frame (st : obj) (vel : vec) (in_model_frame : bool) : result vec :=
  if in_model_frame then Ok vel else bind (getnum st "psi") (fun psi => Ok (rot (- psi) vel)).
(** set_velocity: vehicle.py:252-260 (lateral and rotational velocity ignored);
    vehicle_dynamic.py:211-218 (sets an attribute dtheta);
    pedestrian.py:246-252 (vx is overwritten with omega); diff_drive.py:203-207 (only a
    warning); spacecraft.py:242-248; obstacles_dyn.py:217-224; rocket.py:286-292;
    spaceship.py:279-285. *)
Definition set_velocity (k : model_kind) (st : obj) (vel : vec) (omega : R) (in_model_frame : bool) : result obj :=
  match k with
  | KDiffDrive => Ok st
  | _ =>
      bind (to_model_frame st vel in_model_frame) (fun v =>
      match k with
      | KVehicle => Ok (setattr st "vx" (Num (fst v)))
      | KVehicleDyn => Ok (setattr (setattr (setattr st "vx" (Num (fst v))) "vy" (Num (snd v))) "dtheta" (Num omega))
      | KPedestrian => Ok (setattr (setattr (setattr st "vx" (Num (fst v))) "vy" (Num (snd v))) "vx" (Num omega))
      | _ => Ok (setattr (setattr (setattr st "vx" (Num (fst v))) "vy" (Num (snd v))) "dpsi" (Num omega))
      end)
  end.

(** extract_pose_from_state, models/utils.py:27-37, as position and angle. *)
Definition extract_pose_from_state (st : obj) : result (vec * R) :=
  let pose ang := bind (getnum st "x") (fun x => bind (getnum st "y") (fun y => bind (getnum st ang) (fun th => Ok ((x, y), th)))) in
  match pose "theta" with
  | Err PyAttributeError => match pose "psi" with Err PyAttributeError => Err ZValueError | r => r end
  | r => r
  end.
(** extract_vel_from_state, models/utils.py:44-50. *)
Definition extract_vel_from_state (st : obj) : result R := match getnum st "vx" with Err PyAttributeError => Err ZValueError | r => r end.
