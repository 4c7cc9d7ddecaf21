(** Vocabulary of the statements on pure pursuit. *)
From Coq Require Import Reals List.
From Verif Require Import Base R2 GeoModel GeoSpec PursuitModel.
Open Scope R_scope.

(** What scipy guarantees of the bounded minimiser: a point within the bounds. *)
Definition within_bounds (minimize : (R -> R) -> R -> R -> R) : Prop :=
  forall f lo hi, lo <= hi -> lo <= minimize f lo hi <= hi.

(** A perfect minimiser: the least value of a continuous function. *)
Definition finds_minimum (minimize : (R -> R) -> R -> R -> R) : Prop :=
  forall f lo hi, (forall x, lo <= x <= hi -> continuity_pt f x) -> forall x, lo <= x <= hi -> f (minimize f lo hi) <= f x.

(** The rear axle of a vehicle at [p] with heading [theta]. *)
Definition rear_of (p : vec) (theta lr : R) : vec := vsub p (vscale lr (cos theta, sin theta)).

(** Coordinates of a point seen from [o] looking in direction [theta]: how far
    ahead and how far to the left. *)
Definition ahead (o : vec) (theta : R) (g : vec) : R := vdot (cos theta, sin theta) (vsub g o).
Definition leftward (o : vec) (theta : R) (g : vec) : R := vcross (cos theta, sin theta) (vsub g o).

(** A controller with a path and a pose. *)
Definition ready (c : pursuit) (path : pp_path) (p : vec) (theta along : R) : Prop :=
  exists q, pu_path c = Some path /\ pu_pose c = Some (q, along) /\ pose_at q p theta.
