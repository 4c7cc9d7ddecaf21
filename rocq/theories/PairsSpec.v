(** Vocabulary for collisions of two players at a time. *)
From Coq Require Import List String Bool Arith.
From Verif Require Import Base R2 GeoModel BuildModel DynModel ImpactModel LoopModel SwapSpec.
From Verif Require CollModel SimulatorModel.
Import ListNotations.

(** The second report names the same two players in the other order, at the same
    time; if the collision was computed, everything said about each of them is
    the same and only the sign of the normal differs. *)
Definition other_order (r r' : SimulatorModel.report (CollModel.report (Sh := list vec) string)) : Prop :=
  SimulatorModel.r_players r' = rev (SimulatorModel.r_players r) /\ SimulatorModel.r_time r' = SimulatorModel.r_time r /\
  match SimulatorModel.r_data r, SimulatorModel.r_data r' with Some d, Some d' => d' = swapped d | None, None => True | _, _ => False end.
