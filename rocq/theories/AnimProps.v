(* Generated from tools/Anim.src by tools/gen_props.py. *)
(** What animations show. *)
From Coq Require Lqa.
From Coq Require Import String Reals Lra Psatz QArith Qround Qcanon ZArith List Bool Arith Lia.
From Verif Require Import Base Num R2 SeqModel SeqSpec SeqProofs SeqProofs2 DictLemmas LaneModel LaneProofs ShapeModel EvalModel SimulatorModel SimulatorSpec
  SimulatorProofs SimulatorProofs2 SimulatorProofs3 SimulatorProofs4 SimulatorProofs5 SimulatorProofs6 SimulatorProofs7 SimulatorMain SimulatorWorld ScenarioModel ScenarioMain AnimModel AnimSpec AnimProofs AnimRun.
Import SimulatorModel.
Import ListNotations.
Local Open Scope R_scope.
Local Open Scope string_scope.
From Verif Require Import AnimMain.

(** ** C92 The camera *)

(** "auto": all players are in view, at least 15 from the sides, and each side is 15 away
    from some player. *)
Theorem C92_auto : forall players, players <> [] ->
  exists x0 x1 y0 y1, adjust_axes_limits (Name "auto") (Some players) = Ok (View (Fn x0) (Fn x1) (Fn y0) (Fn y1)) /\
    (forall name s, In (name, s) players -> sees (View (Fn x0) (Fn x1) (Fn y0) (Fn y1)) (ps_pos s) 15) /\
    (exists name s, In (name, s) players /\ fst (ps_pos s) = x0 + 15) /\ (exists name s, In (name, s) players /\ fst (ps_pos s) = x1 - 15) /\
    (exists name s, In (name, s) players /\ snd (ps_pos s) = y0 + 15) /\ (exists name s, In (name, s) players /\ snd (ps_pos s) = y1 - 15).
Proof. exact C92_auto_pf. Qed.
Print Assumptions C92_auto.

Theorem C92_auto_empty : adjust_axes_limits (Name "auto") None = Err ZValueError /\ adjust_axes_limits (Name "auto") (Some []) = Err ZValueError.
Proof. exact C92_auto_empty_pf. Qed.
Print Assumptions C92_auto_empty.

(** The name of a player: a square of 70 whose centre is the position of the player in 1.5
    seconds, but in each direction at most 70/3 ahead, so that the player is always in
    view, at least 35/3 from the sides. *)
Theorem C92_follow : forall name players s v, name <> "auto" -> aget String.eqb players name = Some s -> ps_vx s = Some v ->
  exists cx cy, adjust_axes_limits (Name name) (Some players) = Ok (View (Fn (cx - 35)) (Fn (cx + 35)) (Fn (cy - 35)) (Fn (cy + 35))) /\
    sees (View (Fn (cx - 35)) (Fn (cx + 35)) (Fn (cy - 35)) (Fn (cy + 35))) (ps_pos s) (35 / 3) /\
    let ahead := vscale (3 / 2) (v * cos (ps_heading s), v * sin (ps_heading s)) in
    let shift := vsub (cx, cy) (ps_pos s) in
    (Rabs (fst ahead) <= 70 / 3 -> fst shift = fst ahead) /\ (Rabs (snd ahead) <= 70 / 3 -> snd shift = snd ahead) /\
    (70 / 3 < Rabs (fst ahead) -> Rabs (fst shift) = 70 / 3 /\ 0 <= fst shift * fst ahead) /\
    (70 / 3 < Rabs (snd ahead) -> Rabs (snd shift) = 70 / 3 /\ 0 <= snd shift * snd ahead).
Proof. exact C92_follow_pf. Qed.
Print Assumptions C92_follow.

(** When the player cannot be followed an exception is raised, never a fallback. *)
Theorem C92_follow_fails : forall name, name <> "auto" ->
  adjust_axes_limits (Name name) None = Err PyTypeError /\
  (forall players, ~ In name (akeys players) -> adjust_axes_limits (Name name) (Some players) = Err PyKeyError) /\
  (forall players s, aget String.eqb players name = Some s -> ps_vx s = None -> adjust_axes_limits (Name name) (Some players) = Err PyAttributeError).
Proof. exact C92_follow_fails_pf. Qed.
Print Assumptions C92_follow_fails.

(** The documented alternative spelling "" of "auto" fails, and the fallback to
    ax.autoscale() is never reached. *)
Theorem C92_fallback_refuted : (forall players, ~ In "" (akeys players) -> adjust_axes_limits (Name "") (Some players) = Err PyKeyError) /\
  (forall plot_limits players_states, adjust_axes_limits plot_limits players_states <> Ok Autoscale).
Proof. exact C92_fallback_refuted_pf. Qed.
Print Assumptions C92_fallback_refuted.

(** Given limits are used as they are. *)
Theorem C92_fixed : forall x0 x1 y0 y1 states, adjust_axes_limits (Fixed [[x0; x1]; [y0; y1]]) states = Ok (View (Fn x0) (Fn x1) (Fn y0) (Fn y1)).
Proof. exact C92_fixed_pf. Qed.
Print Assumptions C92_fixed.

Example C92_ex : let ps := [("P1", mkPS (0, 0) 0 (Some 10)); ("P2", mkPS (50, 20) PI (Some 30)); ("P3", mkPS (3, 3) 0 None)] in
  (exists v, adjust_axes_limits (Name "auto") (Some ps) = Ok v /\ sees v (50, 20) 15) /\
  (exists v, adjust_axes_limits (Name "P2") (Some ps) = Ok v /\ sees v (50, 20) (35 / 3)) /\
  adjust_axes_limits (Name "P3") (Some ps) = Err PyAttributeError.
Proof.
  intro ps. split; [|split].
  - destruct (C92_auto ps ltac:(discriminate)) as (x0 & x1 & y0 & y1 & E & A & _). eexists. split; [exact E|]. apply (A "P2" (mkPS (50, 20) PI (Some 30))). right. left. reflexivity.
  - destruct (C92_follow "P2" ps (mkPS (50, 20) PI (Some 30)) 30 ltac:(discriminate) eq_refl eq_refl) as (cx & cy & E & A & _). eexists. split; [exact E|exact A].
  - apply (proj2 (proj2 (C92_follow_fails "P3" ltac:(discriminate))) ps (mkPS (3, 3) 0 None)); reflexivity.
Qed.

(** ** C93 The frames *)
Local Open Scope Qc_scope.

(** What a log that starts at time 0 becomes: a first picture of time 0 and then one frame
    every [frame_step dt] seconds of simulated time, as many as fit in the duration [D],
    each showing every player where the log has them at that time. *)
Theorem C93_frames : forall W mulX addX (log : list (player * plog W)) dt D, made_log log -> known_from 0 log ->
  simlog_init_time log = Ok 0 -> simlog_last_time log = Ok D -> 0 < D -> 0 < dt ->
  exists first frames fps, create_animation mulX addX log dt = Ok (first, frames, fps) /\ shows mulX addX log 0 first /\
    (qn (length frames) * frame_step dt <= D /\ D < (qn (length frames) + 1) * frame_step dt) /\
    forall k t pic, nth_error frames k = Some (t, pic) -> t = qn k * frame_step dt /\ shows mulX addX log t pic.
Proof. exact C93_frames_pf. Qed.
Print Assumptions C93_frames.

(** The last frame of such an animation is at least one step before the end, so the final
    state (a collision, a goal reached) is never shown. *)
Theorem C93_last_instant_refuted : forall W mulX addX (log : list (player * plog W)) dt D, made_log log -> known_from 0 log ->
  simlog_init_time log = Ok 0 -> simlog_last_time log = Ok D -> 0 < D -> 0 < dt ->
  exists first frames fps, create_animation mulX addX log dt = Ok (first, frames, fps) /\ forall t pic, In (t, pic) frames -> t <= D - frame_step dt.
Proof. exact C93_last_instant_refuted_pf. Qed.
Print Assumptions C93_last_instant_refuted.

(** Frames are taken from time 0 although the log may begin later: the frames of a log with
    one player whose commands start after 0 cannot be made. *)
Theorem C93_late_start_refuted : forall W mulX addX p (pl : plog W) dt T0 T1,
  obtainable (pl_states pl) -> obtainable (pl_commands pl) -> obtainable (pl_extra pl) -> obtainable (pl_info pl) -> known_from T0 [(p, pl)] ->
  simlog_init_time [(p, pl)] = Ok T0 -> simlog_last_time [(p, pl)] = Ok T1 -> 0 < dt -> frame_step dt <= T1 - T0 ->
  (forall u, In u (tss (pl_commands pl)) -> 0 < u) -> create_animation mulX addX [(p, pl)] dt = Err UndefinedAtTime.
Proof. exact C93_late_start_refuted_pf. Qed.
Print Assumptions C93_late_start_refuted.

(** Logs that cannot be animated: none of the players have states, nothing lasts, or the
    frame interval is not positive. *)
Theorem C93_refused : forall W mulX addX dt,
  create_animation mulX addX ([] : list (player * plog W)) dt = Err PyValueError /\
  (forall (log : list (player * plog W)) T, simlog_init_time log = Ok T -> simlog_last_time log = Ok T -> create_animation mulX addX log dt = Err PyValueError) /\
  (forall (log : list (player * plog W)) T0 T1, simlog_init_time log = Ok T0 -> simlog_last_time log = Ok T1 -> T0 < T1 -> create_animation mulX addX log 0 = Err PyZeroDivisionError).
Proof. exact C93_refused_pf. Qed.
Print Assumptions C93_refused.

(** Every run that starts at time 0 with an empty log and takes at least two steps can be
    animated, up to its last or last but one instant. *)
Theorem C93_run : forall W mulX addX (c : ctx W) m fuel sf dt, valid_ctx c -> unused m -> 0 < SimulatorModel.dt (g_param (c_cfg c)) -> c_time c = 0 -> c_log c = [] -> c_models c <> [] ->
  run fuel m c = Some (Ok sf) -> SimulatorModel.dt (g_param (c_cfg c)) < time sf -> 0 < dt ->
  exists D first frames fps, simlog_last_time (c_log (cx sf)) = Ok D /\ time sf - SimulatorModel.dt (g_param (c_cfg c)) <= D /\ D <= time sf /\
    create_animation mulX addX (c_log (cx sf)) dt = Ok (first, frames, fps) /\ map fst first = akeys (c_models c) /\
    (qn (length frames) * frame_step dt <= D /\ D < (qn (length frames) + 1) * frame_step dt) /\
    forall k t pic, nth_error frames k = Some (t, pic) -> t = qn k * frame_step dt /\ map fst pic = akeys (c_models c) /\ shows mulX addX (c_log (cx sf)) t pic.
Proof. exact C93_run_pf. Qed.
Print Assumptions C93_run.

(** The file plays at least as fast as the simulation and less than a factor
    1 + [frame_step dt] faster: [fps] frames a second, [frame_step dt] seconds each. *)
Theorem C93_speed : forall W mulX addX (log : list (player * plog W)) dt first frames fps, 0 < dt -> create_animation mulX addX log dt = Ok (first, frames, fps) ->
  1 <= qz fps * frame_step dt /\ qz fps * frame_step dt < 1 + frame_step dt.
Proof. exact C93_speed_pf. Qed.
Print Assumptions C93_speed.

(** It does not play in real time for every interval: with the default of 30 milliseconds
    it is 2% too fast. *)
Theorem C93_real_time_refuted : exists W mulX addX (log : list (player * plog W)) first frames fps,
  create_animation mulX addX log (qz 30) = Ok (first, frames, fps) /\ frames <> [] /\ qz fps * frame_step (qz 30) = qf 102 100.
Proof. exact C93_real_time_refuted_pf. Qed.
Print Assumptions C93_real_time_refuted.

(** The file written has one of the three known endings and is the one asked for, unless
    that has none of them, when .mp4 is added. *)
Theorem C93_file : forall path, (exists e, In e [".mp4"; ".gif"; ".avi"] /\ ends_with (file_name path) e = true) /\
  ((exists e, In e [".mp4"; ".gif"; ".avi"] /\ ends_with path e = true) -> file_name path = path) /\
  (~ (exists e, In e [".mp4"; ".gif"; ".avi"] /\ ends_with path e = true) -> file_name path = (path ++ ".mp4")%string).
Proof. exact C93_file_pf. Qed.
Print Assumptions C93_file.

(** The run of C30_ex, with one frame each half second. *)
Example C93_ex : match run 7 new_simulator ctx1 with
  | Some (Ok s) =>
      match create_animation (W := line) Qcmult Qcplus (c_log (cx s)) (qz 500) with
      | Ok (first, frames, fps) => map (fun f : Qc * list (nat * log_entry line) => (this (fst f), map (fun e : nat * log_entry line => this (le_state (snd e))) (snd f))) frames
           = [(0#1, [0#1; 4#1; 5#1]); (1#2, [1#2; 7#2; 17#4]); (1#1, [1#1; 3#1; 7#2]); (3#2, [1#1; 5#2; 11#4]); (2#1, [1#1; 2#1; 2#1]); (5#2, [1#1; 3#2; 5#4])]%Q /\ fps = 2%Z
      | _ => False
      end
  | _ => False
  end /\ file_name "out" = "out.mp4" /\ file_name "out.gif" = "out.gif".
Proof. vm_compute. repeat split. Qed.

(** ** C94 Who collided *)

Theorem C94_who_collided : forall D (reports : list (SimulatorModel.report D)),
  NoDup (who_collided reports) /\ forall p, In p (who_collided reports) <-> exists r, In r reports /\ In p (r_players r).
Proof. exact C94_who_collided_pf. Qed.
Print Assumptions C94_who_collided.

(** It is not, as documented, the players that collided with one of them: two other
    players that touched each other are named too. *)
Theorem C94_with_the_ego_refuted : exists (reports : list (SimulatorModel.report unit)) ego p, (exists r, In r reports /\ In ego (r_players r)) /\
  In p (who_collided reports) /\ ~ exists r, In r reports /\ In ego (r_players r) /\ In p (r_players r).
Proof. exact C94_with_the_ego_refuted_pf. Qed.
Print Assumptions C94_with_the_ego_refuted.

(** After a run: exactly those that some collision call of the run named. *)
Theorem C94_run : forall W (c : ctx W) m fuel sf, valid_ctx c -> unused m -> 0 < SimulatorModel.dt (g_param (c_cfg c)) -> c_reports c = [] ->
  run fuel m c = Some (Ok sf) -> forall p, In p (who_collided (c_reports (cx sf))) <-> exists r, In r (expected_reports (ev sf)) /\ In p (r_players r).
Proof. exact C94_run_pf. Qed.
Print Assumptions C94_run.

Example C94_ex : match run 7 new_simulator ctx1 with Some (Ok s) => who_collided (c_reports (cx s)) = [2; 3]%nat | _ => False end.
Proof. vm_compute. reflexivity. Qed.

(** ** C22 The computation times *)

(** The log of the computation times has exactly one entry per request, at its time. *)
Theorem C22_computation_times_logged : forall W (c : ctx W) s0 k s p, started c s0 -> 0 < SimulatorModel.dt (g_param (c_cfg c)) -> after s0 k s ->
  In p (akeys (c_models c)) -> info_log s p = map (fun a => (ask_t a, cpu_time W p (ask_t a))) (asks s p).
Proof. exact C22_computation_times_logged_pf. Qed.
Print Assumptions C22_computation_times_logged.

(** ** C101 Pictures of the collisions of a run *)

(** In the log of a run from time 0, at the time of a collision, every player that collided has
    the state in which the collision left it: this is where its picture is drawn. *)
Theorem C101_run : forall W mulX addX (c : ctx W) m fuel sf, valid_ctx c -> unused m -> 0 < SimulatorModel.dt (g_param (c_cfg c)) -> c_time c = 0 -> c_log c = [] ->
  resolution_keeps_footprint W -> (forall f g, intersects W f g = intersects W g f) -> (forall a b, addX (mulX a 1) (mulX b 0) = a) ->
  run fuel m c = Some (Ok sf) ->
  exists s0, started c s0 /\ forall p t, ((exists q, In (p, q, t) (pairs_of (ev sf)) \/ In (q, p, t) (pairs_of (ev sf))) \/ exists i, In (p, i, t) (envs_of (ev sf))) ->
    exists k s x entries e, after s0 k s /\ time s = t /\ active s p /\ state_of s p = Some x /\
      simlog_at_interp mulX addX (c_log (cx sf)) t = Ok entries /\ dget entries p = Some e /\ le_state e = x.
Proof. exact C101_run_pf. Qed.
Print Assumptions C101_run.

(** The run of C30_ex has collisions, and its world is as required. *)
Example C101_run_ex : valid_ctx ctx1 /\ resolution_keeps_footprint line /\ (forall f g, intersects line f g = intersects line g f) /\
  (forall a b : w_X line, a * 1 + b * 0 = a) /\ match run 7 new_simulator ctx1 with Some (Ok s) => pairs_of (ev s) <> [] | _ => False end.
Proof.
  split; [exact (proj1 started1)|]. split; [split; [intros sc p q t a b a' b' H; injection H as <- <-; auto|reflexivity]|].
  split; [intros f g; apply near_sym|]. split; [intros a b; change (w_X line) with Qc in a, b; ring|]. vm_compute. discriminate.
Qed.
