(** Vocabulary of the statements on geometry. *)
From Coq Require Import Reals List.
From Verif Require Import Base R2 GeoModel.
Import ListNotations.
Open Scope R_scope.

(** [pose_at q p theta]: the array [q] is the pose at [p] with heading
    [theta]: it maps the point (a, b) to p + a (cos theta, sin theta) +
    b (-sin theta, cos theta). *)
Definition pose_at (q : mat) (p : vec) (theta : R) : Prop :=
  forall a b, (m00 q * a + m01 q * b + m02 q, m10 q * a + m11 q * b + m12 q) =
              vadd p (vadd (vscale a (cos theta, sin theta)) (vscale b (- sin theta, cos theta))).
(** [q] is a pose (an element of SE(2)). *)
Definition is_se2 (q : mat) : Prop := exists p theta, pose_at q p theta.
