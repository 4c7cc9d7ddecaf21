(** Model of the animation of a simulation: simulator_animation.py (the colours of the
    lights are in LightModel.v), approximate_bounding_box_players of
    simulator_visualisation.py, and who_collided of sim/utils.py.  What is drawn of a player
    is in DrawModel.v. *)
From Coq Require Import String Reals QArith Qround Qcanon ZArith List Bool Arith.
From Verif Require Import Base Num R2 SeqModel LaneModel ShapeModel EvalModel SimulatorModel ScenarioModel.
Import ListNotations.
Local Open Scope string_scope.

(** ** The part of the plane that is shown *)
Local Open Scope R_scope.
(** The attributes of a state: DiffDriveState has no vx, diff_drive.py:61-69. *)
Record pstate := mkPS { ps_pos : vec; ps_heading : R; ps_vx : option R }.
(** minmax[i] after one more state, simulator_visualisation.py:639-643; the two axes do not
    depend on each other. *)
Definition bb_step (b : ext * ext) (xory : R) : ext * ext :=
  let b := if ext_ltb (Fn xory) (fst b) then (Fn xory, snd b) else b in
  if ext_ltb (snd b) (Fn xory) then (fst b, Fn xory) else b.
(** e + d.
    Used for [approximate_bounding_box_players], simulator_visualisation.py:633-649; [adjust_axes_limits], simulator_animation.py:181-220. *)
Definition ext_add (e : ext) (d : R) : ext := match e with Fn r => Fn (r + d) | e => e end.
(** approximate_bounding_box_players, simulator_visualisation.py:633-649.  The maximum of
    two lists is a list and never equal to inf: the result is never None. *)
Definition approximate_bounding_box_players (obj_list : list vec) : result (option ((ext * ext) * (ext * ext))) :=
  let x := fold_left bb_step (map fst obj_list) (PInf, NInf) in
  let y := fold_left bb_step (map snd obj_list) (PInf, NInf) in
  if ext_ltb (snd x) (fst x) then Err PyAssertionError
  else if ext_ltb (snd y) (fst y) then Err PyAssertionError
  else Ok (Some ((ext_add (fst x) (-10), ext_add (snd x) 10), (ext_add (fst y) (-10), ext_add (snd y) 10))).
(** The argument plot_limits: a string, a sequence of sequences, or something else.
    Used for [adjust_axes_limits], simulator_animation.py:181-220. *)
Inductive limits := Name (s : string) | Fixed (l : list (list R)) | Unknown.
(** What the axes show: ax.axis(xmin, xmax, ymin, ymax), or ax.autoscale().
    Used for [adjust_axes_limits], simulator_animation.py:181-220. *)
Inductive view := View (xmin xmax ymin ymax : ext) | Autoscale.
(** adjust_axes_limits, simulator_animation.py:181-220. *)
Definition adjust_axes_limits (plot_limits : limits) (players_states : option (list (string * pstate))) : result view :=
  match plot_limits with
  | Name s =>
      if String.eqb s "auto" then
        match players_states with
        | None | Some [] => Err ZValueError
        | Some l =>
            bind (approximate_bounding_box_players (map (fun e => ps_pos (snd e)) l)) (fun players_limits =>
            match players_limits with
            | Some (x, y) => Ok (View (ext_add (fst x) (-5)) (ext_add (snd x) 5) (ext_add (fst y) (-5)) (ext_add (snd y) 5))
            | None => Ok Autoscale
            end)
        end
      else
        match
          bind (match players_states with None => Err PyTypeError | Some l => agetE String.eqb l s end) (fun state =>
          match ps_vx state with
          | None => Err PyAttributeError
          | Some vx =>
              let slack := 35 in
              let v_scaling := 3 / 2 in
              let velocity_v := vscale v_scaling (vx * cos (ps_heading state), vx * sin (ps_heading state)) in
              let buffer := slack / 3 in
              let velocity_v := (clip (fst velocity_v) (- slack + buffer) (slack - buffer), clip (snd velocity_v) (- slack + buffer) (slack - buffer)) in
              let x_c := fst (ps_pos state) + fst velocity_v in
              let y_c := snd (ps_pos state) + snd velocity_v in
              Ok (View (Fn (x_c - slack)) (Fn (x_c + slack)) (Fn (y_c - slack)) (Fn (y_c + slack)))
          end)
        with
        | Err PyAssertionError => Ok Autoscale
        | r => r
        end
  | Fixed l =>
      bind (item l 0) (fun x => bind (item x 0) (fun x0 => bind (item x 1) (fun x1 =>
      bind (item l 1) (fun y => bind (item y 0) (fun y0 => bind (item y 1) (fun y1 =>
      Ok (View (Fn x0) (Fn x1) (Fn y0) (Fn y1))))))))
  | Unknown => Err ZValueError
  end.

(** ** The frames *)
Local Open Scope Qc_scope.
(** int(x // y) and math.ceil.
    Used for [create_animation], simulator_animation.py:30-178. *)
Definition floor_div (x y : Qc) : Z := Qfloor (this (x / y)).
Definition qceil (x : Qc) : Z := Qceiling (this x).
(** The file that is written, simulator_animation.py:163-164. *)
Definition file_name (file_path : string) : string :=
  if existsb (ends_with file_path) [".mp4"; ".gif"; ".avi"] then file_path else file_path ++ ".mp4".
Section Frames.
Context {W : world} (mulX : w_X W -> Qc -> w_X W) (addX : w_X W -> w_X W -> w_X W).
(** What one picture shows: the entries of the players.
    Used for [update_plot], simulator_animation.py:117-155; [create_animation], simulator_animation.py:30-178. *)
Definition picture : Type := list (player * log_entry W).
(** update_plot, simulator_animation.py:117-155: the entries of the players drawn at first. *)
Definition update_plot (log : list (player * plog W)) (drawn : list player) (t : Qc) : result picture :=
  Base.bind (simlog_at_interp mulX addX log t) (fun log_at_t => rmapM (fun pname => Base.bind (dgetE log_at_t pname) (fun e => Ok (pname, e))) drawn).
(** create_animation, simulator_animation.py:30-178: the first picture, the frames with
    their times, and the number of frames per second of the file.  The frames are those of
    range(frame_count); matplotlib refuses a negative number of frames with ValueError. *)
Definition create_animation (log : list (player * plog W)) (dt : Qc) : result (picture * list (Qc * picture) * Z) :=
  Base.bind (simlog_init_time log) (fun time_begin =>
  Base.bind (simlog_last_time log) (fun time_end =>
  if negb (qltb time_begin time_end) then Err PyValueError
  else
    let dt := qmin (qz 1000) dt in
    if qeqb dt 0 then Err PyZeroDivisionError
    else
      let frame_count := floor_div (time_end - time_begin) (dt / qz 1000) in
      let fps := qceil (qz 1000 / dt) in
      if (frame_count <? 0)%Z then Err PyValueError
      else
        Base.bind (simlog_at_interp mulX addX log time_begin) (fun first =>
        Base.bind (rmapM (fun frame => let t := qn frame * dt / qz 1000 in Base.bind (update_plot log (akeys first) t) (fun p => Ok (t, p)))
                    (List.seq 0 (Z.to_nat frame_count))) (fun frames =>
        Ok (first, frames, fps))))).
End Frames.

(** ** who_collided, sim/utils.py:16-18: the elements of the frozenset. *)
Definition who_collided {D} (collision_reports : list (SimulatorModel.report D)) : list player :=
  nodup Nat.eq_dec (concat (map r_players collision_reports)).
