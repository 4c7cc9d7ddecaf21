(** Vocabulary for speeds beyond the limits of a model. *)
From Coq Require Import Reals.
From Verif Require Import Base DataModel DataSpec BuildModel.
Open Scope R_scope.

(** The limits on the speed that the parameters of a vehicle state. *)
Definition speed_limits (m : model) (lo hi : R) : Prop := exists acc dm ddm, mo_params m = PVehicle (lo, hi) acc dm ddm.
(** The limits on the speed that the parameters of a dynamic obstacle state. *)
Definition obstacle_limits (m : model) (lo hi : R) : Prop := exists acc dpsi ddpsi, mo_params m = PObstacle (lo, hi) acc dpsi ddpsi.
(** The limits, widened so far that the value [x] is inside. *)
Definition widened_lo (lo x : R) : R := Rmin lo x.
Definition widened_hi (hi x : R) : R := Rmax hi x.
