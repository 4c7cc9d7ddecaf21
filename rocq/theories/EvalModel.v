(** Model of src/dg_commons/eval/: comfort.py, efficiency.py, safety.py. *)
From Coq Require Import String Reals List Bool ZArith QArith Qcanon Arith Qreals.
From Coq Require Floats.SpecFloat.
From Verif Require Import Base Num SeqModel R2 GeoModel LaneModel.
Import ListNotations.

(** t_range: lower and upper end, None for no bound.
    Used for [jerk_loop], comfort.py:14-21; [get_max_jerk], comfort.py:8-22. *)
Definition trange : Type := option Qc * option Qc.
(** t_range[0] is not None and t < t_range[0].
    Used for [jerk_loop], comfort.py:14-21; [min_dist_times], safety.py:45-54. *)
Definition too_early (r : trange) (t : Qc) : bool := match fst r with Some a => qltb t a | None => false end.
(** t_range[1] is not None and t > t_range[1].
    Used for [jerk_loop], comfort.py:14-21; [min_dist_times], safety.py:45-54. *)
Definition too_late (r : trange) (t : Qc) : bool := match snd r with Some b => qltb b t | None => false end.

(** *** comfort.py *)

Section Jerk.
Context {U : Type} (acc : U -> Qc).
Open Scope Qc_scope.
(** The loop of get_max_jerk, comfort.py:14-21. *)
Fixpoint jerk_loop (r : trange) (max_jerk : Qc) (l : list (iterate_dt U)) : Qc :=
  match l with
  | [] => max_jerk
  | it :: rest =>
      if too_early r (it_t1 it) then jerk_loop r max_jerk rest
      else if too_late r (it_t1 it) then max_jerk
      else
        let jerk := (acc (it_v1 it) - acc (it_v0 it)) / (it_t1 it - it_t0 it) in
        jerk_loop r (if qltb max_jerk (qabs jerk) then qabs jerk else max_jerk) rest
  end.
(** get_max_jerk, comfort.py:8-22. *)
Definition get_max_jerk (commands : SeqModel.seq U) (r : trange) : result Qc :=
  Base.bind (iterate_with_dt commands) (fun l => Ok (jerk_loop r 0 l)).
End Jerk.

Open Scope R_scope.
(** numpy.fft.rfft (external): ValueError on an empty array.
    Used for [acc_rms_of], comfort.py:38-49. *)
Definition dft_re (a : list R) (k : nat) : R :=
  rsum (map (fun ja => snd ja * cos (2 * PI * INR (fst ja) * INR k / INR (length a))) (combine (List.seq 0 (length a)) a)).
Definition dft_im (a : list R) (k : nat) : R :=
  - rsum (map (fun ja => snd ja * sin (2 * PI * INR (fst ja) * INR k / INR (length a))) (combine (List.seq 0 (length a)) a)).
Definition rfft (a : list R) : result (list (R * R)) :=
  match a with [] => Err PyValueError | _ => Ok (map (fun k => (dft_re a k, dft_im a k)) (List.seq 0 (length a / 2 + 1))) end.
(** numpy.fft.rfftfreq.  Used for [acc_rms_of], comfort.py:38-49. *)
Definition rfftfreq (n : nat) (d : R) : list R := map (fun k => INR k / (INR n * d)) (List.seq 0 (n / 2 + 1)).
(** numpy.fft.irfft without a length: 2 (m - 1) values from m coefficients; ValueError
    if that is zero.  The imaginary parts of the first and of the last coefficient are
    not used.  Used for [acc_rms_of], comfort.py:38-49. *)
Definition irfft_at (c : list (R * R)) (j : nat) : R :=
  let m := length c in
  let n := (2 * (m - 1))%nat in
  let term k ck := fst ck * cos (2 * PI * INR j * INR k / INR n) - snd ck * sin (2 * PI * INR j * INR k / INR n) in
  (fst (nth 0 c (0, 0)) + 2 * rsum (map (fun k => term k (nth k c (0, 0))) (List.seq 1 (m - 2))) + fst (nth (m - 1) c (0, 0)) * cos (PI * INR j)) / INR n.
Definition irfft (c : list (R * R)) : result (list R) :=
  let n := (2 * (length c - 1))%nat in
  if (n =? 0)%nat then Err PyValueError else Ok (map (irfft_at c) (List.seq 0 n)).

(** acc_freq_filter, comfort.py:52-60. *)
Definition acc_freq_filter (freq : R) : R :=
  (1455 / 100 * freq ^ 2 + 6026 / 1000 * freq + 7725 / 1000) / (freq ^ 3 + 1502 / 100 * freq ^ 2 + 5163 / 100 * freq + 4761 / 100).

(** The sum of squares and the square root, comfort.py:45-49. *)
Definition rms (l : list R) : R := sqrt (rsum (map (fun a => a ^ 2) l) / INR (length l)).
(** get_acc_rms after the selection of the samples, comfort.py:38-49. *)
Definition acc_rms_of (acc_time : list R) : result R :=
  let st := 1 / 10 in
  LaneModel.bind (rfft acc_time) (fun acc_freqs =>
  let freqs := rfftfreq (length acc_time) st in
  let weighted := map (fun cf => (fst (fst cf) * acc_freq_filter (snd cf), snd (fst cf) * acc_freq_filter (snd cf))) (combine acc_freqs freqs) in
  LaneModel.bind (irfft weighted) (fun acc_time_weighted => Ok (rms acc_time_weighted))).
(** get_acc_rms, comfort.py:25-49. *)
Definition get_acc_rms {U} (acc : U -> R) (commands : SeqModel.seq U) (r : trange) : result R :=
  LaneModel.bind (match fst r with Some a => Ok a | None => get_start commands end) (fun lo =>
  LaneModel.bind (match snd r with Some b => Ok b | None => get_end commands end) (fun hi =>
  acc_rms_of (map (fun tv => acc (snd tv)) (filter (fun tv => qleb lo (fst tv) && qleb (fst tv) hi) (iter commands))))).

(** *** efficiency.py *)

(** distance_traveled, efficiency.py:16-20; [pos] reads x and y of a state. *)
Definition distance_traveled {X} (pos : X -> vec) (states : SeqModel.seq X) : result R :=
  Base.bind (iterate_with_dt states) (fun l =>
  Ok (fold_left (fun dist it => dist + sqrt ((fst (pos (it_v1 it)) - fst (pos (it_v0 it))) ^ 2 + (snd (pos (it_v1 it)) - snd (pos (it_v0 it))) ^ 2)) l 0)).

(** time_goal_lane_reached, efficiency.py:27-40: the first state that is
    [reached] (an oracle that may raise or not return: [None]). *)
Fixpoint reached_loop {X} (reached : X -> option (result bool)) (l : list (Qc * X)) : option (result (option Qc)) :=
  match l with
  | [] => Some (Ok None)
  | (t, x) :: rest =>
      match reached x with
      | None => None
      | Some (Err e) => Some (Err e)
      | Some (Ok true) => Some (Ok (Some t))
      | Some (Ok false) => reached_loop reached rest
      end
  end.
Definition time_goal_lane_reached {X} (reached : X -> option (result bool)) (states : SeqModel.seq X) : option (result (option Qc)) := reached_loop reached (iter states).

(** A commonroad lanelet as used here: identifier, successors, predecessors, and the
    lane DgLanelet.from_commonroad_lanelet makes of it.
    Used for [get_lanelet_from_dglanelet], efficiency.py:87-91; [get_next_dglane], efficiency.py:94-127. *)
Record crlane := mkCR { cr_id : nat; cr_succ : list nat; cr_pred : list nat; cr_dg : lanelet }.
(** A lane network: its lanelets and find_lanelet_by_position for one point
    (external: the identifiers of the lanelets containing the point).
    Used for [get_lanelet_from_dglanelet], efficiency.py:87-91; [get_next_dglane], efficiency.py:94-127. *)
Record network := mkNet { n_lanes : list crlane; n_at : vec -> list nat }.
(** find_lanelet_by_id: None if there is none.
    Used for [get_lanelet_from_dglanelet], efficiency.py:87-91; [get_next_dglane], efficiency.py:94-127. *)
Definition find_by_id (n : network) (i : nat) : option crlane := find (fun l => (cr_id l =? i)%nat) (n_lanes n).
(** get_lanelet_from_dglanelet, efficiency.py:87-91; a missing lanelet is None, whose
    attributes are then asked for. *)
Definition get_lanelet_from_dglanelet (n : network) (d : lanelet) : result crlane :=
  LaneModel.bind (LaneModel.item d 1) (fun c =>
  LaneModel.bind (LaneModel.item (n_at n (t_p (cp_q c))) 0) (fun i =>
  match find_by_id n i with Some l => Ok l | None => Err PyAttributeError end)).
(** get_successor_dglane / get_predecessor_dglane, efficiency.py:94-127, for a
    DgLanelet; [next] is the list of successors or predecessors.  from_commonroad_lanelet
    of None is an AttributeError. *)
Definition get_next_dglane (next : crlane -> list nat) (n : network) (d : lanelet) : result (option lanelet) :=
  LaneModel.bind (get_lanelet_from_dglanelet n d) (fun l =>
  match next l with
  | [] => Ok None
  | i :: _ => match find_by_id n i with Some l' => Ok (Some (cr_dg l')) | None => Err PyAttributeError end
  end).
Definition get_successor_dglane := get_next_dglane cr_succ.
Definition get_predecessor_dglane := get_next_dglane cr_pred.

(** The walk of desired_lane_reached. *)
Section Walk.
Variable n : network.
(** ref_lane.lane_pose_from_SE2Transform(ego_pose) *)
Variable lane_pose_on : lanelet -> result lane_pose_t.
(** What one run through the body of the while loop does: leave the loop, or go on
    with another lane.
    Used for [walk_before], efficiency.py:69-74; [walk_body], efficiency.py:59-74. *)
Inductive outcome := Leave (lp : lane_pose_t) | Go (d : lanelet) (lp : lane_pose_t).
(** The second if of the body, efficiency.py:69-74. *)
Definition walk_before (d : lanelet) (lp : lane_pose_t) : result outcome :=
  if lp_along_before lp then
    LaneModel.bind (get_predecessor_dglane n d) (fun d' =>
    match d' with
    | None => Ok (Leave lp)
    | Some d' => LaneModel.bind (lane_pose_on d') (fun lp' => Ok (Go d' lp'))
    end)
  else Ok (Go d lp).
(** The body, efficiency.py:59-74. *)
Definition walk_body (d : lanelet) (lp : lane_pose_t) : result outcome :=
  if ltb (Rabs (lp_along_lane lp)) 1 || ltb (Rabs (lp_along_lane lp - get_lane_length d)) 1 then Ok (Leave lp)
  else if lp_along_after lp then
    LaneModel.bind (get_successor_dglane n d) (fun d' =>
    match d' with
    | None => Ok (Leave lp)
    | Some d' => LaneModel.bind (lane_pose_on d') (fun lp' => walk_before d' lp')
    end)
  else walk_before d lp.
(** The loop; None when the fuel is exhausted.
    Used for [desired_lane_reached], efficiency.py:43-84. *)
Fixpoint walk (fuel : nat) (d : lanelet) (lp : lane_pose_t) : option (result lane_pose_t) :=
  match fuel with
  | O => None
  | S fuel =>
      if lp_along_inside lp then Some (Ok lp)
      else match walk_body d lp with
           | Err e => Some (Err e)
           | Ok (Leave lp') => Some (Ok lp')
           | Ok (Go d' lp') => walk fuel d' lp'
           end
  end.
(** desired_lane_reached, efficiency.py:43-84; [fulfilled] is
    goal_lane.is_fulfilled(state). *)
Definition desired_lane_reached (fuel : nat) (ref_lane : lanelet) (fulfilled : result bool) (pos_tol heading_tol : R) : option (result bool) :=
  match lane_pose_on ref_lane with
  | Err e => Some (Err e)
  | Ok lp0 =>
      match walk fuel ref_lane lp0 with
      | None => None
      | Some (Err e) => Some (Err e)
      | Some (Ok lp) =>
          match fulfilled with
          | Err e => Some (Err e)
          | Ok true => Some (Ok true)
          | Ok false => Some (Ok (lp_lateral_inside lp && ltb (lp_distance_from_center lp) pos_tol && ltb (Rabs (lp_relative_heading lp)) heading_tol))
          end
      end
  end.
End Walk.

(** *** safety.py *)

Local Open Scope string_scope.
(** has_collision, safety.py:20-27; a report is the list of the players involved. *)
Definition has_collision (cr_list : list (list string)) : bool :=
  let collided_players := fold_left (fun s players => (s ++ players)%list) cr_list [] in
  if existsb (String.eqb "Ego") collided_players then true else false.

(** Floats with the infinities.
    Used for [get_ttc], safety.py:197-211; [min_dist_loop], safety.py:118-126; [min_dist_times], safety.py:45-54. *)
Inductive ext := NInf | Fn (r : R) | PInf.
Definition ext_ltb (a b : ext) : bool :=
  match a, b with
  | NInf, NInf => false | NInf, _ => true
  | Fn x, Fn y => ltb x y | Fn _, PInf => true
  | _, _ => false
  end.

(** _get_ttc_of_poly_and_state, safety.py:214-235.  Time is a float (IEEE 754, as in the
    standard library's SpecFloat); positions are reals.  A polygon is a list of vertices;
    [intersects] is shapely's test. *)
Definition flt := SpecFloat.spec_float.
Definition f_add : flt -> flt -> flt := SpecFloat.SFadd 53 1024.
Definition f_zero : flt := SpecFloat.S754_zero false.
(** 0.1 and 3.0.  Used for [get_ttc], safety.py:197-211. *)
Definition f_tenth : flt := SpecFloat.S754_finite false 7205759403792794 (-56).
Definition f_three : flt := SpecFloat.S754_finite false 6755399441055744 (-51).
(** The number a finite float denotes.  Used for [get_ttc], safety.py:197-211. *)
Definition f_val (x : flt) : R :=
  match x with
  | SpecFloat.S754_finite s m e => (if s then -1 else 1) * IZR (Zpos m) * powerRZ 2 e
  | _ => 0
  end.
Definition polygon := list vec.
(** shapely.affinity.translate.  Used for [get_ttc], safety.py:197-211. *)
Definition translate (p : polygon) (d : vec) : polygon := map (fun v => vadd v d) p.
Section Ttc.
Variable intersects : polygon -> polygon -> bool.
Fixpoint ttc_poly_loop (fuel : nat) (poly1 : polygon) (delta_pos : vec) (time : flt) (poly2 : polygon) : option (option flt) :=
  match fuel with
  | O => None
  | S fuel =>
      if intersects poly1 poly2 then Some (Some time)
      else if SpecFloat.SFltb f_three time then Some None
      else ttc_poly_loop fuel poly1 delta_pos (f_add time f_tenth) (translate poly2 delta_pos)
  end.
(** [None] when the fuel is exhausted.  Used for [get_ttc], safety.py:197-211. *)
Definition ttc_of_poly_and_state (fuel : nat) (poly1 poly2 : polygon) (vx1 psi1 vx2 psi2 : R) : option (ext * ext * ext) :=
  let v1 := vscale vx1 (cos psi1, sin psi1) in
  let v2 := vscale vx2 (cos psi2, sin psi2) in
  let delta_pos := vscale (1 / 10) (vsub v2 v1) in
  match ttc_poly_loop fuel poly1 delta_pos f_zero poly2 with
  | None => None
  | Some None => Some (PInf, PInf, PInf)
  | Some (Some time) => Some (Fn (f_val time), Fn (vx1 * f_val time), Fn (vx2 * f_val time))
  end.
(** _get_ttc, safety.py:197-211; the outlines in the frames of the models. *)
Definition get_ttc (fuel : nat) (outline1 outline2 : polygon) (pos1 : vec) (psi1 vx1 : R) (pos2 : vec) (psi2 vx2 : R) : option (ext * ext * ext) :=
  let place o p th := map (SE2_apply_T2 (SE2_from_translation_angle p th)) o in
  ttc_of_poly_and_state fuel (place outline1 pos1 psi1) (place outline2 pos2 psi2) vx1 psi1 vx2 psi2.
End Ttc.

Section Metrics.
(** [St] the states of players, [Md] their models, [Gl] their goals; an entry of the log
    at a time is reduced to its state. *)
Context {St Md Gl : Type}.
Variable logs_at : Qc -> result (list (string * St)).   (* logs.at_interp(t) *)
Variable missions : list (string * Gl).
Variable models : list (string * Md).
Variable is_fulfilled : Gl -> St -> result bool.
(** state.x, state.y, state.vx, state.psi and model.vg.outline_as_polygon. *)
Variables (pos : St -> vec) (vx psi : St -> R) (outline : Md -> polygon).
(** shapely: distance of the nearest points, and the intersection test. *)
Variable pdist : polygon -> polygon -> R.
Variable intersects : polygon -> polygon -> bool.
(** _remove_finished_players, safety.py:238-253. *)
Fixpoint remove_finished_players (l : list (string * St)) : result (list (string * St)) :=
  match l with
  | [] => Ok []
  | (name, x) :: rest =>
      LaneModel.bind (agetE String.eqb missions name) (fun mission =>
      LaneModel.bind (is_fulfilled mission x) (fun f =>
      LaneModel.bind (remove_finished_players rest) (fun r => Ok (if f then r else (name, x) :: r))))
  end.

(** _get_dist, safety.py:186-194 (the distance). *)
Definition get_dist (state1 state2 : St) (model1 model2 : Md) : R :=
  let place o x := map (SE2_apply_T2 (SE2_from_translation_angle (pos x) (psi x))) o in
  pdist (place (outline model1) state1) (place (outline model2) state2).
(** The loop of get_min_dist_at_t, safety.py:118-126. *)
Fixpoint min_dist_loop (ego : string) (ego_state : St) (ego_model : Md) (best : ext * option string) (l : list (string * St)) : result (ext * option string) :=
  match l with
  | [] => Ok best
  | (name, x) :: rest =>
      if String.eqb name ego then min_dist_loop ego ego_state ego_model best rest
      else LaneModel.bind (agetE String.eqb models name) (fun agent_model =>
           let d := get_dist ego_state x ego_model agent_model in
           min_dist_loop ego ego_state ego_model (if ext_ltb (Fn d) (fst best) then (Fn d, Some name) else best) rest)
  end.
(** get_min_dist_at_t, safety.py:93-127. *)
Definition get_min_dist_at_t (ego : string) (t : Qc) : result (ext * option string) :=
  LaneModel.bind (logs_at t) (fun l =>
  LaneModel.bind (remove_finished_players l) (fun l =>
  match aget String.eqb l ego with
  | None => Ok (PInf, None)
  | Some ego_state => LaneModel.bind (agetE String.eqb models ego) (fun ego_model => min_dist_loop ego ego_state ego_model (PInf, None) l)
  end)).
(** The loop of get_min_dist, safety.py:45-54. *)
Fixpoint min_dist_times (ego : string) (r : trange) (best : ext * option string * option Qc) (ts : list Qc) : result (ext * option string * option Qc) :=
  match ts with
  | [] => Ok best
  | t :: rest =>
      if too_early r t then min_dist_times ego r best rest
      else if too_late r t then Ok best
      else LaneModel.bind (get_min_dist_at_t ego t) (fun da =>
           min_dist_times ego r (if ext_ltb (fst da) (fst (fst best)) then (fst da, snd da, Some t) else best) rest)
  end.
(** get_min_dist, safety.py:30-55; [timesteps] = logs[ego_name].states.timestamps. *)
Definition get_min_dist (ego : string) (timesteps : list Qc) (r : trange) : result (ext * option string * option Qc) :=
  min_dist_times ego r (PInf, None, None) timesteps.

(** agent_vel, ego_vel, safety.py:155, 168. *)
Definition vel (x : St) : vec := vscale (vx x) (cos (psi x), sin (psi x)).
(** _get_ttc on states and models; 32 rounds are always enough (C65).
    Used for [ttc_loop], safety.py:161-181. *)
Definition ttc_of (state1 state2 : St) (model1 model2 : Md) : ext * ext * ext :=
  match get_ttc intersects 32 (outline model1) (outline model2) (pos state1) (psi state1) (vx state1) (pos state2) (psi state2) (vx state2) with
  | Some r => r
  | None => (PInf, PInf, PInf)
  end.
(** The test that skips an agent, safety.py:165-172; when the centres coincide every
    comparison is with a number that is not one, and when the relative velocity is zero
    the quotient is infinite. *)
Definition skipped (ego_state x : St) : bool :=
  let dist_center := vnorm (vsub (pos x) (pos ego_state)) in
  if Req_EM_T dist_center 0 then false
  else
    let rel := vdot (vsub (vel x) (vel ego_state)) (vscale (/ dist_center) (vsub (pos x) (pos ego_state))) in
    if Req_EM_T rel 0 then true else ltb 0 rel || ltb 5 (Rabs (dist_center / rel)).
(** drac, safety.py:178; a square divided by infinity is zero. *)
Definition drac_of (v : R) (ego_dtc : ext) : ext :=
  match ego_dtc with
  | Fn d => if ltb 0 d then Fn (v ^ 2 / (2 * d)) else PInf
  | PInf => Fn 0
  | NInf => PInf
  end.
(** The loop of get_ttc_drac_at_t, safety.py:161-181. *)
Fixpoint ttc_loop (ego : string) (ego_state : St) (ego_model : Md) (best : ext * option string * (ext * option string)) (l : list (string * St)) : result (ext * option string * (ext * option string)) :=
  match l with
  | [] => Ok best
  | (name, x) :: rest =>
      if String.eqb name ego then ttc_loop ego ego_state ego_model best rest
      else LaneModel.bind (agetE String.eqb models name) (fun agent_model =>
           if skipped ego_state x then ttc_loop ego ego_state ego_model best rest
           else
             let '(ttc, ego_dtc, _) := ttc_of ego_state x ego_model agent_model in
             let drac := drac_of (vx ego_state) ego_dtc in
             ttc_loop ego ego_state ego_model
               ((if ext_ltb ttc (fst (fst best)) then (ttc, Some name) else fst best),
                (if ext_ltb (fst (snd best)) drac then (drac, Some name) else snd best)) rest)
  end.
(** get_ttc_drac_at_t, safety.py:130-183. *)
Definition get_ttc_drac_at_t (ego : string) (t : Qc) : result (ext * option string * (ext * option string)) :=
  LaneModel.bind (logs_at t) (fun l =>
  LaneModel.bind (remove_finished_players l) (fun l =>
  match aget String.eqb l ego with
  | None => Ok (PInf, None, (NInf, None))
  | Some ego_state => LaneModel.bind (agetE String.eqb models ego) (fun ego_model => ttc_loop ego ego_state ego_model (PInf, None, (NInf, None)) l)
  end)).
(** The loop of get_min_ttc_max_drac, safety.py:76-89. *)
Fixpoint ttc_times (ego : string) (r : trange) (best : (ext * option string * option Qc) * (ext * option string * option Qc)) (ts : list Qc)
  : result ((ext * option string * option Qc) * (ext * option string * option Qc)) :=
  match ts with
  | [] => Ok best
  | t :: rest =>
      if too_early r t then ttc_times ego r best rest
      else if too_late r t then Ok best
      else LaneModel.bind (get_ttc_drac_at_t ego t) (fun td =>
           let '(ttc, drac) := td in
           ttc_times ego r
             ((if ext_ltb (fst ttc) (fst (fst (fst best))) then (ttc, Some t) else fst best),
              (if ext_ltb (fst (fst (snd best))) (fst drac) then (drac, Some t) else snd best)) rest)
  end.
(** get_min_ttc_max_drac, safety.py:58-90. *)
Definition get_min_ttc_max_drac (ego : string) (timesteps : list Qc) (r : trange) :=
  ttc_times ego r ((PInf, None, None), (NInf, None, None)) timesteps.
End Metrics.
