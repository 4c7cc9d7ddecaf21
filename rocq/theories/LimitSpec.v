(** Vocabulary for the statements about the time limits of a simulation. *)
From Coq Require Import QArith Qcanon ZArith List Bool Arith.
From Verif Require Import Base Num SeqModel SimulatorModel SimulatorSpec.
Import ListNotations.
Open Scope Qc_scope.

Section Spec.
Context {W : world}.

(** The same simulation with other values of max_sim_time and
    sim_time_after_collision. *)
Definition with_limits (limit after : Qc) (c : ctx W) : ctx W :=
  mkCtx (mkConfig (g_scen (c_cfg c)) (mkParam (dt (g_param (c_cfg c))) (dt_commands (g_param (c_cfg c))) limit after)
                  (g_missions (c_cfg c)) (g_sensors_default (c_cfg c)) (g_seed (c_cfg c)))
        (c_models c) (c_players c) (c_sensors c) (c_log c) (c_time c) (c_term c) (c_reports c) (c_first c).

(** [b] is [a] followed by samples stamped [t] or later. *)
Definition continued {X} (t : Qc) (a b : list (Qc * X)) : Prop :=
  exists more, b = a ++ more /\ forall x, In x more -> t <= fst x.

(** Everything in the log [a] of a player is in [b] too, in the same order, and
    whatever [b] holds besides is stamped [t] or later. *)
Definition log_continued (t : Qc) (a b : plog W) : Prop :=
  continued t (iter (pl_states a)) (iter (pl_states b)) /\ continued t (iter (pl_commands a)) (iter (pl_commands b)) /\
  continued t (iter (pl_extra a)) (iter (pl_extra b)) /\ continued t (iter (pl_info a)) (iter (pl_info b)).

(** The run that ended in [z] went on where the run that ended in [s] stopped. *)
Definition goes_on (s z : st W) : Prop :=
  time s <= time z /\
  (forall p, In p (akeys (c_models (cx s))) -> exists l k, dget (c_log (cx s)) p = Some l /\ dget (c_log (cx z)) p = Some k /\ log_continued (time s) l k) /\
  (exists more, c_reports (cx z) = c_reports (cx s) ++ more /\ (reports_stamped W -> forall r, In r more -> time s <= r_time r)).

(** Neither limit was the reason for stopping. *)
Definition within_limits (s : st W) : Prop :=
  time s <= max_sim_time (param s) /\ forall f, c_first (cx s) = Some f -> time s <= f + after_collision (param s).
End Spec.
