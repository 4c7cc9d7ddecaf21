(** A concrete geometry on a line, used by the examples: a state is a point, a
    shape is an interval, the sensor looks to the right up to distance 10 and
    is blocked by the nearest shape that starts further right.  An interval
    whose ends are swapped is invalid and makes the intersection test raise. *)
From Coq Require Import QArith Qcanon ZArith List Bool Arith.
From Verif Require Import Base Num SeqModel SimulatorModel PerceptionModel PerceptionSpec.
Import ListNotations.
Open Scope Qc_scope.

Definition line_valid (f : Qc * Qc) : bool := qleb (fst f) (snd f).
Definition line_fov (z : Qc) (l : list (Qc * Qc)) : Qc * Qc :=
  (z, fold_right (fun q m => if qltb z (fst q) then qmin (fst q) m else m) (z + qz 10) l).
Definition line : geo (Qc * Qc) (Qc * Qc) (Qc * Qc) Qc :=
  mkGeo (fun x => Ok (fst x)) (fun x => Ok x) (fun f => Ok [f]) (fun z l => Ok (line_fov z l))
    (fun a b => if line_valid a && line_valid b then Ok (qleb (fst a) (snd b) && qleb (fst b) (snd a)) else Err PyOther)
    line_valid (fun f => Ok (snd f, fst f)).

Definition at_ (a b : Z) : (Qc * Qc) * (Qc * Qc) := ((qz a, 0), (qz a, qz b)).
(** Player 0 at 0, player 1 at 3, player 2 at 6 (behind player 1). *)
Definition row : simobs (Qc * Qc) (Qc * Qc) := mkObs [(1%nat, at_ 3 4); (0%nat, at_ 0 1); (2%nat, at_ 6 7)] (qz 5).
(** Player 1's occupancy is invalid. *)
Definition row_bad : simobs (Qc * Qc) (Qc * Qc) :=
  mkObs [(1%nat, ((qz 3, 0), (qz 4, qz 3))); (0%nat, at_ 0 1)] (qz 5).
(** A wall between players 0 and 1. *)
Definition wall : list (Qc * Qc) := [(qz 2, qz 2)].

Definition only0 (t : Qc) : simobs (Qc * Qc) (Qc * Qc) := mkObs [(0%nat, at_ 0 1)] t.
Definition hist5 : list (simobs (Qc * Qc) (Qc * Qc)) := map (fun k => only0 (qn k * qf 1 10)) (List.seq 0 5).
