(** Vocabulary of the statements on controllers. *)
From Coq Require Import QArith Qcanon ZArith List Bool Arith.
From Verif Require Import Base Num SeqModel SimulatorModel VehState CtrlModel.
Import ListNotations.
Open Scope Qc_scope.

Definition within (lim : Qc * Qc) (x : Qc) : Prop := fst lim <= x /\ x <= snd lim.

(** The nearest value inside the limits. *)
Definition saturated (lim : Qc * Qc) (x y : Qc) : Prop :=
  (x < fst lim /\ y = fst lim) \/ (snd lim < x /\ y = snd lim) \/ (within lim x /\ y = x).

(** The calls of a PID controller. *)
Inductive pid_call := Measure (m : Qc) | Refer (r : Qc) | Ask (at_ : Qc).

Definition pid_do (c : pid) (o : pid_call) : pid * option Qc :=
  match o with
  | Measure m => (update_measurement c m, None)
  | Refer r => (update_reference c r, None)
  | Ask t => let '(c', y) := get_control c t in (c', Some y)
  end.

(** [after p calls c outs]: a controller created with parameters [p] is in
    state [c] after the calls, having answered [outs] (latest first). *)
Inductive after (p : pid_param) : list pid_call -> pid -> list Qc -> Prop :=
| after_new : after p [] (pid_new p) []
| after_call h c outs o c' y : after p h c outs -> pid_do c o = (c', y) ->
    after p (h ++ [o]) c' (match y with Some v => v :: outs | None => outs end).

(** The latest measurement and reference of a history (0 if none). *)
Fixpoint last_measure (h : list pid_call) (d : Qc) : Qc :=
  match h with [] => d | Measure m :: r => last_measure r m | _ :: r => last_measure r d end.
Fixpoint last_refer (h : list pid_call) (d : option Qc) : option Qc :=
  match h with [] => d | Refer m :: r => last_refer r (Some m) | _ :: r => last_refer r d end.

(** ** Speed behaviour *)
(** The number pi of Python, the binary fraction of 53 bits next to it. *)
Definition pi53 : Qc := qf 884279719003555 281474976710656.

Section SB.
Context {X F : Type} (K : kin X) (sp : sb_param).

(** Another agent: its pose relative to mine and its speed. *)
Definition other_agent (me : player) (l : list (player * (X * F))) (mine : X) (r : rel_pose) (v : Qc) : Prop :=
  exists p x f, In (p, (x, f)) l /\ p <> me /\ relative K mine x = Some r /\ vx_of K x = Some v.

(** Within distance [d] of me. *)
Definition near (r : rel_pose) (d : Qc) : Prop := 0 < d /\ rel_x r * rel_x r + rel_y r * rel_y r < d * d.

(** Coming from the right, moving, close. *)
Definition must_yield (r : rel_pose) (v : Qc) : Prop :=
  pi53 / qz 4 <= rel_theta r /\ rel_theta r <= pi53 * qz 3 / qz 4 /\ minimum_yield_vel sp < v /\ near r (yield_distance sp).

(** Coming from the left, moving, close; or oncoming in my lane within the
    distance covered together in the safety time. *)
Definition is_emergency (myvel : Qc) (r : rel_pose) (v : Qc) : Prop :=
  (qz (-3) * pi53 / qz 4 <= rel_theta r /\ rel_theta r <= - pi53 / qz 4 /\ minimum_yield_vel sp < v /\ near r (yield_distance sp)) \/
  (qz 3 * pi53 / qz 4 <= qabs (rel_theta r) /\ qabs (rel_theta r) <= pi53 * qz 5 / qz 4 /\
   0 < rel_x r /\ qf (-12) 10 <= rel_y r /\ rel_y r <= qf 12 10 /\ near r (safety_time sp * (myvel + v))).

(** In front of me, same direction, closer than the safety distance. *)
Definition too_close_ahead (myvel : Qc) (r : rel_pose) (v : Qc) : Prop :=
  qf 1 2 < rel_x r /\ - qf 12 10 <= rel_y r /\ rel_y r <= qf 12 10 /\
  - (pi53 / qz 6) < rel_theta r /\ rel_theta r < pi53 / qz 6 /\
  near r (myvel * safety_time sp + qmax (myvel - v) 0).

(** The speed asked for behind a slower vehicle: its speed minus the speed
    difference, between 0 and 130 km/h. *)
Definition follow_speed (myvel v : Qc) : Qc := qmin (qmax (v - qmax (myvel - v) 0) 0) (qf 325 9).
End SB.
