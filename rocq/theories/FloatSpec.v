(** Vocabulary of the statements on binary64 arithmetic. *)
From Coq Require Import Reals ZArith List Bool Sorting.Sorted.
From Flocq Require Import Core IEEE754.BinarySingleNaN.
From Verif Require Import Base FloatModel.
From Verif Require DecModel.
Import ListNotations.
Open Scope R_scope.

(** A finite float, and its value. *)
Definition finite (x : fl) : Prop := is_finite x = true.
Definition val (x : fl) : R := B2R x.
(** A float far from overflow. *)
Definition moderate (x : fl) : Prop := finite x /\ Rabs (val x) <= 2 ^ 1000.
(** Timestamps in strictly increasing order. *)
Definition increasing (ts : list fl) : Prop := StronglySorted Rlt (map val ts).
(** The line through (ta, va) and (tb, vb) at t. *)
Definition linear (ta tb va vb t : R) : R := va + (vb - va) * ((t - ta) / (tb - ta)).
(** Two neighbouring samples. *)
Definition neighbours (ts vs : list fl) (ta tb va vb : fl) : Prop :=
  exists i, nth_error ts i = Some ta /\ nth_error ts (S i) = Some tb /\ nth_error vs i = Some va /\ nth_error vs (S i) = Some vb.
(** The value of a finite decimal. *)
Definition dval (c e : Z) : R := IZR c * powerRZ 10 e.
(** The nearest binary64 number (ties to even), without overflow. *)
Definition nearest (x : R) : R := round radix2 (FLT_exp (-1074) 53) ZnearestE x.
(** Decimal timestamps c * 10^e. *)
Definition stamps (e : Z) (cs : list Z) : list DecModel.decimal := map (fun c => DecModel.DNum c e) cs.
(** They increase, have at most 27 digits, are far from overflow, and neighbours are not too
    close to each other, also relative to their distance from 0. *)
Definition spaced (e : Z) (cs : list Z) : Prop :=
  StronglySorted Z.lt cs /\ (forall c, In c cs -> (Z.abs c < 10 ^ 27)%Z /\ Rabs (dval c e) <= 2 ^ 1000) /\
  forall i a b, nth_error cs i = Some a -> nth_error cs (S i) = Some b ->
    / 2 ^ 1000 <= dval (b - a) e /\ Rmax (Rabs (dval a e)) (Rabs (dval b e)) <= 2 ^ 47 * dval (b - a) e.
(** Neighbouring timestamps are far enough from each other for [n] more in between. *)
Definition fine (n : nat) (ts : list fl) : Prop :=
  forall i a b, nth_error ts i = Some a -> nth_error ts (S i) = Some b ->
    / 2 ^ 950 <= val b - val a /\ (INR n + 1) * (/ 2 ^ 49 * Rmax (Rabs (val a)) (Rabs (val b))) <= val b - val a.
