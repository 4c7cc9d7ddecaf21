(** Words used in the statements about animations. *)
From Coq Require Import String Reals List.
From Verif Require Import Base R2 EvalModel AnimModel.
Open Scope R_scope.

(** A point is in view, at least [margin] away from the sides of the picture. *)
Definition sees (v : view) (p : vec) (margin : R) : Prop :=
  match v with
  | View (Fn x0) (Fn x1) (Fn y0) (Fn y1) => x0 + margin <= fst p <= x1 - margin /\ y0 + margin <= snd p <= y1 - margin
  | _ => False
  end.

From Coq Require Import QArith Qcanon.
From Verif Require Import Num SeqModel SeqSpec SimulatorModel.
Import ListNotations.
Local Open Scope Qc_scope.
(** All sequences of the log are ones the library makes. *)
Definition made_log {W} (log : list (player * plog W)) : Prop :=
  NoDup (akeys log) /\
  forall p pl, In (p, pl) log -> obtainable (pl_states pl) /\ obtainable (pl_commands pl) /\ obtainable (pl_extra pl) /\ obtainable (pl_info pl).
(** Every player has states, and commands and computation times from time [t] on. *)
Definition known_from {W} (t : Qc) (log : list (player * plog W)) : Prop :=
  forall p pl, In (p, pl) log -> tss (pl_states pl) <> [] /\ (exists u, In u (tss (pl_commands pl)) /\ u <= t) /\ (exists u, In u (tss (pl_info pl)) /\ u <= t).
(** The picture shows every player of the log, in order, with the state interpolated at
    [t] and the commands held since the last sample. *)
Definition shows {W} mulX addX (log : list (player * plog W)) (t : Qc) (pic : list (player * log_entry W)) : Prop :=
  Forall2 (fun ppl pe => fst pe = fst ppl /\ interp_rel mulX addX (pl_states (snd ppl)) t (le_state (snd pe)) /\ is_prev_sample (pl_commands (snd ppl)) t (le_commands (snd pe))) log pic.
(** Seconds of simulated time from one frame to the next: [dt] milliseconds, at most one
    second. *)
Definition frame_step (dt : Qc) : Qc := qmin (qz 1000) dt / qz 1000.
