(** Vocabulary of the statements on decimal times. *)
From Coq Require Import QArith Qcanon ZArith List Bool.
From Verif Require Import Base Num SimulatorModel SimulatorSpec DecModel.
Open Scope Qc_scope.

(** A number with at most 28 digits. *)
Definition short (q : Qc) : Prop := exists z k : Z, (Z.abs z < 10 ^ 28)%Z /\ q = qz z * Q2Qc (Qpower (10 # 1) k).
(** A number with [d] digits after the point and at most 27 altogether. *)
Definition few_digits (d : Z) (q : Qc) : Prop := exists z : Z, (Z.abs z < 10 ^ 27)%Z /\ q = qz z * Q2Qc (Qpower (10 # 1) (- d)).
(** All times of a simulation that are given from outside have few digits. *)
Definition few_times {W : world} (d : Z) (c : ctx W) : Prop :=
  few_digits d (c_time c) /\ few_digits d (dt (g_param (c_cfg c))) /\ few_digits d (max_sim_time (g_param (c_cfg c))) /\
  few_digits d (after_collision (g_param (c_cfg c))) /\ forall f, c_first c = Some f -> few_digits d f.
