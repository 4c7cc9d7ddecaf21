(** Vocabulary of the statements on the construction of models. *)
From Coq Require Import Reals List String.
From Verif Require Import Base R2 GeoModel DataModel DataSpec BodyModel BodySpec DynModel DrawModel BuildModel.
Import ListNotations.
Open Scope R_scope.
Local Open Scope string_scope.

(** The ranges and the largest values that a parameter object holds. *)
Definition ranges (p : params) : list (R * R) :=
  match p with
  | PModel vx acc | PVehicle vx acc _ _ | PPedestrian vx acc _ => [vx; acc]
  | PDiffDrive vx acc r | PSpacecraft vx acc r => [vx; acc; r]
  | PObstacle vx acc r r' => [vx; acc; r; r']
  | PRocket vx acc _ _ F d dd | PSpaceship vx acc _ _ F d dd => [vx; acc; F; d; dd]
  end.
Definition maxima (p : params) : list R :=
  match p with PVehicle _ _ d dd => [d; dd] | PPedestrian _ _ d => [d] | _ => [] end.
(** No range is empty or a point, no largest value is zero or negative. *)
Definition proper (p : params) : Prop := (forall lo hi, In (lo, hi) (ranges p) -> lo < hi) /\ (forall d, In d (maxima p) -> 0 < d).
(** A range in metres per second, given in kilometres per hour. *)
Definition in_kmh (l : R * R) (lo hi : R) : Prop := 3600 * fst l = 1000 * lo /\ 3600 * snd l = 1000 * hi.
(** A range of angles, given in degrees, with as much to the left as to the right. *)
Definition in_degrees (l : R * R) (d : R) : Prop := 180 * snd l = d * PI /\ fst l = - snd l.

(** The model is at [p] and points to [psi]. *)
Definition stands (m : model) (p : vec) (psi : R) : Prop := has (mo_state m) "x" (fst p) /\ has (mo_state m) "y" (snd p) /\ has (mo_state m) "psi" psi.
(** Two models that may differ in their states. *)
Definition same_body (m m' : model) : Prop := mo_kind m' = mo_kind m /\ mo_geo m' = mo_geo m /\ mo_shape m' = mo_shape m.
(** [r'] is [r] after [f], or the same exception. *)
Definition carried {A} (f : A -> A) (r r' : result A) : Prop := match r, r' with Ok x, Ok y => y = f x | Err e, Err e' => e' = e | _, _ => False end.

(** The classes of states for the ready-made models, and their types. *)
Definition own_kind (d : preset) : model_kind :=
  match d with Car | Truck | Bicycle => KVehicle | DynCar | DynTruck | DynBicycle => KVehicleDyn | Pedestrian => KPedestrian | DiffDrive => KDiffDrive
             | Spacecraft => KSpacecraft | Rocket => KRocket | Spaceship => KSpaceship end.
Definition type_name (d : preset) : string :=
  match d with Car | DynCar => "car" | Truck | DynTruck => "truck" | Bicycle | DynBicycle => "bicycle" | Pedestrian => "pedestrian"
             | DiffDrive => "differential_drive" | Spacecraft => "spacecraft" | Rocket => "rocket" | Spaceship => "spaceship" end.
(** Mass [kg], moment of inertia [kg m^2], restitution in percent. *)
Definition mass_table (d : preset) : R * R * R :=
  match d with Car | DynCar => (1300, 1600, 50) | Truck | DynTruck => (8000, 6300, 50) | Bicycle | DynBicycle => (85, 90, 35) | Pedestrian => (75, 50, 35)
             | DiffDrive => (3, 5, 50) | Spacecraft => (50, 100, 70) | Rocket | Spaceship => (2, 1, 70) end.
(** The types of vehicles by name. *)
Definition type_string (t : vtype) : option string :=
  match t with CAR => Some "car" | TRUCK => Some "truck" | MOTORCYCLE => Some "motorcycle" | BICYCLE => Some "bicycle" | DIFF_DRIVE => Some "differential_drive" | OTHER_TYPE => None end.
(** The geometry [g] of a vehicle, as used in the equations of motion. *)
Definition same_vehicle (g : geometry) (v : vgeo) : Prop :=
  ge_m g = Some (vg_m v) /\ ge_Iz g = Some (vg_Iz v) /\ exists t, type_string (vg_type v) = Some t /\
  ge_body g = GVehicle (BodyModel.mkVG t (vg_w_half v) (vg_lf v) (vg_lr v)) (vg_c_drag v) (vg_a_drag v) (vg_c_rr_f v) (vg_c_rr_r v) (vg_h v).
(** Limits as used in the equations of motion. *)
Definition same_limits (vx acc : R * R) (m : mparams) : Prop := vx = (mp_vlo m, mp_vhi m) /\ acc = (mp_alo m, mp_ahi m).
