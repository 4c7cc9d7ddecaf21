(** Vocabulary of the statements on sensors. *)
From Coq Require Import Reals List.
From Verif Require Import R2.
Import ListNotations.
Open Scope R_scope.

(** The point at the given distance in the given direction from [p]. *)
Definition at_dir (p : vec) (a d : R) : vec := (fst p + d * cos a, snd p + d * sin a).
(** The segment between two points. *)
Definition on_segment (a b x : vec) : Prop := exists t, 0 <= t <= 1 /\ x = vadd a (vscale t (vsub b a)).
(** A ray tracer that is right about a set of obstacle points: the hits are on the segment,
    and every obstacle point on the segment is between the two ends of a hit. *)
Definition right_raytrace (obstacle : vec -> Prop) (raytrace : vec -> vec -> list (vec * vec)) : Prop :=
  forall a b, (forall i o, In (i, o) (raytrace a b) -> on_segment a b i /\ on_segment a b o) /\
    (forall x, on_segment a b x -> obstacle x -> exists i o, In (i, o) (raytrace a b) /\ on_segment i o x) /\
    (forall i o, In (i, o) (raytrace a b) -> obstacle i /\ obstacle o).
