(** Vocabulary of the statements on goals. *)
From Coq Require Import String Reals List Bool.
From Verif Require Import Base R2 GeoModel LaneModel DataModel DataSpec GoalModel.
Import ListNotations.
Open Scope R_scope.
Local Open Scope string_scope.

(** A state at position [p] with heading [th] (like those of all models: an attribute
    psi and no attribute theta), and any other attributes. *)
Definition state_at (st : obj) (p : vec) (th : R) : Prop :=
  has st "x" (fst p) /\ has st "y" (snd p) /\ has st "psi" th /\ getattr st "theta" = Err PyAttributeError.
(** [p] is at distance at most [r] (less than [r]) from some point of the segment [a b]. *)
Definition within (a b : vec) (r : R) (p : vec) : Prop := exists t, 0 <= t <= 1 /\ vdist p (vadd a (vscale t (vsub b a))) <= r.
Definition strictly_within (a b : vec) (r : R) (p : vec) : Prop := exists t, 0 <= t <= 1 /\ vdist p (vadd a (vscale t (vsub b a))) < r.
(** The buffer polygon of a segment lies within the radius, and contains at least the
    points within [rho] times the radius (the arcs are replaced by chords). *)
Definition right_buffer {polygon} (rho : R) (buffer : vec -> vec -> R -> polygon) (contains : polygon -> vec -> bool) : Prop :=
  0 < rho <= 1 /\ forall a b r p, 0 < r ->
    (contains (buffer a b r) p = true -> within a b r p) /\ (strictly_within a b (rho * r) p -> contains (buffer a b r) p = true).
(** The point at [s] metres along and [lat] metres to the left of a line from [p] with
    direction [th]. *)
Definition ahead_left (p : vec) (th s lat : R) : vec := (fst p + s * cos th - lat * sin th, snd p + s * sin th + lat * cos th).
(** A straight lane of half width [w] from [p] in direction [th], with [n + 1] control
    points at distances [d]. *)
Definition even_lane (p : vec) (th d : R) (n : nat) (w : R) : lanelet :=
  map (fun i => mkCP (mkSE2T (ahead_left p th (INR i * d) 0) th) w) (seq 0 (S n)).
