(** Regions enclosed by convex rings of points. *)
From Coq Require Import Reals List.
From Verif Require Import R2.
Import ListNotations.
Open Scope R_scope.

(** The edges of a ring, whose last point is its first one again. *)
Definition edges (ring : list vec) : list (vec * vec) := combine ring (tl ring).
Definition closed (ring : list vec) : Prop := exists a l, ring = a :: l /\ last l a = a.
(** On which side of the line from [a] to [b] is [p]?  Positive: on the left. *)
Definition side (a b p : vec) : R := (fst b - fst a) * (snd p - snd a) - (snd b - snd a) * (fst p - fst a).
(** The points that a convex ring encloses are on the same side of all edges. *)
Definition encloses (ring : list vec) (p : vec) : Prop :=
  (forall a b, In (a, b) (edges ring) -> side a b p <= 0) \/ (forall a b, In (a, b) (edges ring) -> 0 <= side a b p).
(** The rectangle [x0, x1] x [-w, w], lengthwise and with its middle on the axis. *)
Definition box (x0 x1 w : R) (p : vec) : Prop := x0 <= fst p <= x1 /\ - w <= snd p <= w.
(** The triangle with a base at [x0], as wide as the box, and its tip on the axis at
    [x1]. *)
Definition cone (x0 x1 w : R) (p : vec) : Prop := exists s, 0 <= s <= 1 /\ fst p = x0 + s * (x1 - x0) /\ - ((1 - s) * w) <= snd p <= (1 - s) * w.
(** [ring] is the boundary of [region]. *)
Definition bounds (ring : list vec) (region : vec -> Prop) : Prop := closed ring /\ forall p, encloses ring p <-> region p.
