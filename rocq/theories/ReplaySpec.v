(** Vocabulary for the statements about replays. *)
From Coq Require Import QArith Qcanon ZArith List Bool Arith.
From Verif Require Import Base Num SeqModel SimulatorModel SimulatorSpec ReplayModel.
Import ListNotations.
Open Scope Qc_scope.

(** Two finished simulations in which the same things happened to the bodies:
    same time, same state of every model, same players still there, same
    collisions in the same order with the same first time, and for every player
    the same logged states and commands with the same times. *)
Definition same_happened {W : world} {cpu} (sf : st W) (sr : st (replay_world W cpu)) : Prop :=
  time sr = time sf /\
  c_models (cx sr) = c_models (cx sf) /\
  akeys (c_players (cx sr)) = akeys (c_players (cx sf)) /\
  c_reports (cx sr) = c_reports (cx sf) /\
  c_first (cx sr) = c_first (cx sf) /\
  forall p, In p (akeys (c_models (cx sf))) -> exists l r,
    dget (c_log (cx sf)) p = Some l /\ dget (c_log (cx sr)) p = Some r /\
    iter (pl_states r) = iter (pl_states l) /\ iter (pl_commands r) = iter (pl_commands l).
