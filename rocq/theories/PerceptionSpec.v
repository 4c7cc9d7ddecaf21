(** Vocabulary of the statements on observation filters. *)
From Coq Require Import QArith Qcanon ZArith List Bool Arith Permutation Sorted.
From Verif Require Import Base Num SeqModel SimulatorModel PerceptionModel.
Import ListNotations.
Open Scope Qc_scope.

Section S.
Context {X F P Z_ : Type} (g : geo X F P Z_).

(** What an observation says about a player: None if it is not in it. *)
Definition sees (o : simobs X F) (p : player) : option (X * F) := aget Nat.eqb (o_players o) p.

(** A player is listed at most once (a dict). *)
Definition proper (o : simobs X F) : Prop := NoDup (map fst (o_players o)).

(** A geometry after the repair of the exception handler. *)
Definition repaired (f f' : F) : Prop := if valid g f then f' = f else repair g f = Ok f'.

(** [visible r o o' b]: the test of occupancy [o] against the region [r] gives
    [b], the occupancy used being [o']: directly, or after repairing both when
    the direct test raises. *)
Definition visible (r o o' : F) (b : bool) : Prop :=
  (hits g r o = Ok b /\ o' = o) \/
  (exists e r', hits g r o = Err e /\ repaired r r' /\ repaired o o' /\ hits g r' o' = Ok b).

(** The visible region as the loop may be using it: the one the sensor
    computed, or the result of repairing it after a test on it raised. *)
Inductive region_of (r : F) : F -> Prop :=
| ro_same : region_of r r
| ro_repair r1 r2 occ e : region_of r r1 -> hits g r1 occ = Err e -> valid g r1 = false -> repair g r1 = Ok r2 -> region_of r r2.

(** A field-of-view filter that has only been used with scenario [sc]. *)
Inductive used_with (sc : list F) : @fov_filter P Z_ -> Prop :=
| uw_new : used_with sc fov_new
| uw_sense st o pov st' o' : used_with sc st -> fov_sense g st sc o pov = Ok (st', o') -> used_with sc st'.

(** [polys_of shapes l]: [l] are the polygons of all the shapes, in some order. *)
Definition polys_of (shapes : list F) (l : list P) : Prop :=
  exists ls, Forall2 (fun f q => to_cr g f = Ok q) shapes ls /\ Permutation l (concat ls).

(** A delay filter after the wrapped filter has produced the observations
    [past], oldest first. *)
Inductive fed {S} (inner : S -> list F -> simobs X F -> player -> result (S * simobs X F)) (L : Qc) (s0 : S)
  : delayed S -> list (simobs X F) -> Prop :=
| fed_new : fed inner L s0 (mkDelayed s0 []) []
| fed_sense st past sc full pov st' out s' o : fed inner L s0 st past ->
    delayed_sense inner L st sc full pov = Ok (st', out) ->
    inner (dl_inner st) sc full pov = Ok (s', o) ->
    fed inner L s0 st' (past ++ [o]).

(** The times of a feeding history never decrease. *)
Definition in_order (os : list (simobs X F)) : Prop := StronglySorted Qcle (map o_time os).

(** Run a delay filter over a list of inputs (scenario and observer fixed). *)
Fixpoint sense_all {S} (sense : S -> list F -> simobs X F -> player -> result (S * simobs X F))
  (st : S) (sc : list F) (pov : player) (ins : list (simobs X F)) : result (S * list (simobs X F)) :=
  match ins with
  | [] => Ok (st, [])
  | o :: r => match sense st sc o pov with
              | Err e => Err e
              | Ok (st', out) => match sense_all sense st' sc pov r with
                                 | Err e => Err e
                                 | Ok (st'', outs) => Ok (st'', out :: outs)
                                 end
              end
  end.

(** What a delay filter must answer: the k-th output is the oldest input that
    is at most [L] old, re-stamped with its time + L. *)
Definition delays (L : Qc) (ins outs : list (simobs X F)) : Prop :=
  length outs = length ins /\
  forall k out now, nth_error outs k = Some out -> nth_error ins k = Some now ->
    exists i r, (i <= k)%nat /\ nth_error ins i = Some r /\
      out = mkObs (o_players r) (o_time r + L) /\
      o_time now - L <= o_time r /\ o_time r <= o_time now /\
      (forall j q, (j < i)%nat -> nth_error ins j = Some q -> o_time q < o_time now - L).

(** Inputs sampled every [dt] starting at 0. *)
Definition sampled_every (dt : Qc) (ins : list (simobs X F)) : Prop :=
  forall k o, nth_error ins k = Some o -> o_time o = qn k * dt.
End S.
