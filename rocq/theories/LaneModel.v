(** Model of src/dg_commons/maps/lanes.py, over the reals. *)
From Coq Require Import Reals List Bool ZArith.
From Verif Require Import Base R2 GeoModel.
Import ListNotations.
Open Scope R_scope.

(** LaneCtrPoint, lanes.py:70-75. *)
Record ctrl := mkCP { cp_q : SE2Transform; cp_r : R }.
(** DgLanelet, lanes.py:81-85: its list of control points. *)
Definition lanelet := list ctrl.

(** bool of a comparison of floats.
    Used for [along_lane_from_beta], lanes.py:211-223; [beta_loop], lanes.py:243-249. *)
Definition ltb (x y : R) : bool := if Rlt_dec x y then true else false.
Definition leb (x y : R) : bool := if Rle_dec x y then true else false.
(** sum(l).
    Used for [get_lane_length], lanes.py:124-125; [along_lane_from_beta], lanes.py:211-223. *)
Definition rsum (l : list R) : R := fold_left Rplus l 0.
(** int(np.floor(x)).
    Used for [along_lane_from_beta], lanes.py:211-223; [radius], lanes.py:251-262. *)
Definition ifloor (x : R) : Z := Int_part x.
(** math.isclose(a, b, abs_tol=1e-8), rel_tol = 1e-9.
    Used for [beta_from_along_lane], lanes.py:225-249. *)
Definition isclose (a b : R) : bool := leb (Rabs (a - b)) (Rmax (/ 1000000000 * Rmax (Rabs a) (Rabs b)) (/ 100000000)).
(** l[i].
    Used for [from_vertices_loop], lanes.py:95-106; [along_lane_from_beta], lanes.py:211-223. *)
Definition item {A} (l : list A) (i : nat) : result A := match nth_error l i with Some x => Ok x | None => Err PyIndexError end.
(** l[-1].
    Used for [radius], lanes.py:251-262; [center_point], lanes.py:264-281; [from_vertices_loop], lanes.py:95-106. *)
Definition item_last {A} (l : list A) : result A := match rev l with x :: _ => Ok x | [] => Err PyIndexError end.
Definition bind {A B} (r : result A) (f : A -> result B) : result B := match r with Ok x => f x | Err e => Err e end.

(** DgLanelet.from_vertices, lanes.py:95-106. *)
Fixpoint from_vertices_loop (left right : list vec) (i : nat) (center : list vec) : result lanelet :=
  match center with
  | [] => Ok []
  | c :: rest =>
      bind (item right i) (fun r => bind (item left i) (fun l =>
      let normal := vsub r l in
      let tangent := rot90 normal in
      let theta := atan2 (snd tangent) (fst tangent) in
      bind (from_vertices_loop left right (S i) rest) (fun cps => Ok (mkCP (mkSE2T c theta) (vnorm normal / 2) :: cps))))
  end.
Definition from_vertices (left right center : list vec) : result lanelet := from_vertices_loop left right 0 center.

(** get_lane_lengths, lanes.py:114-122 (the cache is modelled below). *)
Fixpoint get_lane_lengths (cps : lanelet) : list R :=
  match cps with
  | p0 :: ((p1 :: _) as rest) => get_distance_SE2 (as_SE2 (cp_q p0)) (as_SE2 (cp_q p1)) :: get_lane_lengths rest
  | _ => []
  end.

(** get_lane_length, lanes.py:124-125. *)
Definition get_lane_length (cps : lanelet) : R := rsum (get_lane_lengths cps).

(** len(self.control_points) - 1 as a float.
    Used for [along_lane_from_beta], lanes.py:211-223; [beta_from_along_lane], lanes.py:225-249. *)
Definition last_beta (cps : lanelet) : R := INR (length cps) - 1.

(** along_lane_from_beta, lanes.py:211-223. *)
Definition along_lane_from_beta (cps : lanelet) (beta : R) : result R :=
  let lengths := get_lane_lengths cps in
  if ltb beta 0 then Ok beta
  else if leb (last_beta cps) beta then Ok (rsum lengths + (beta - last_beta cps))
  else
    let i := ifloor beta in
    let rest := beta - IZR i in
    bind (item lengths (Z.to_nat i)) (fun l => Ok (rsum (firstn (Z.to_nat i) lengths) + l * rest)).

(** The loop of beta_from_along_lane, lanes.py:243-249. *)
Fixpoint beta_loop (lengths : list R) (x0 : R) (is : list nat) : result R :=
  match is with
  | [] => Err PyAssertionError
  | i :: more =>
      let start_x := rsum (firstn i lengths) in
      let end_x := rsum (firstn (S i) lengths) in
      if leb start_x x0 && ltb x0 end_x then bind (item lengths i) (fun l => Ok (INR i + (x0 - start_x) / l))
      else beta_loop lengths x0 more
  end.
(** beta_from_along_lane, lanes.py:225-249. *)
Definition beta_from_along_lane (cps : lanelet) (along_lane : R) : result R :=
  let lengths := get_lane_lengths cps in
  let x0 := along_lane in
  let S := rsum lengths in
  if ltb x0 0 then Ok x0
  else if ltb S x0 then Ok (last_beta cps + (x0 - S))
  else if isclose x0 S then Ok (last_beta cps)
  else if leb 0 x0 && ltb x0 S then beta_loop lengths x0 (seq 0 (length cps - 1))
  else Err PyAssertionError.

(** radius, lanes.py:251-262. *)
Definition radius (cps : lanelet) (beta : R) : result R :=
  let i := ifloor beta in
  if (i <? 0)%Z then bind (item cps 0) (fun c => Ok (cp_r c))
  else if (i >=? Z.of_nat (length cps) - 1)%Z then bind (item_last cps) (fun c => Ok (cp_r c))
  else
    let alpha := beta - IZR i in
    bind (item cps (Z.to_nat i)) (fun c0 => bind (item cps (Z.to_nat i + 1)) (fun c1 =>
    Ok (cp_r c0 * (1 - alpha) + cp_r c1 * alpha))).

(** The pose 0.1 ahead of [q].
    Used for [center_point], lanes.py:264-281; [center_point_fast], lanes.py:283-303. *)
Definition ahead01 (q : mat) : mat := mmul q (SE2_from_translation_angle (1 / 10, 0) 0).

(** center_point, lanes.py:264-281. *)
Definition center_point (cps : lanelet) (beta : R) : result mat :=
  let i := ifloor beta in
  if (i <? 0)%Z then
    bind (item cps 0) (fun c => let q0 := as_SE2 (cp_q c) in Ok (SE2_interpolate q0 (ahead01 q0) beta))
  else if (i >=? Z.of_nat (length cps) - 1)%Z then
    bind (item_last cps) (fun c => let q0 := as_SE2 (cp_q c) in Ok (SE2_interpolate q0 (ahead01 q0) (beta - last_beta cps)))
  else
    bind (item cps (Z.to_nat i)) (fun c0 => bind (item cps (Z.to_nat i + 1)) (fun c1 =>
    Ok (SE2_interpolate (as_SE2 (cp_q c0)) (as_SE2 (cp_q c1)) (beta - IZR i)))).

(** Linear interpolation of position and angle, lanes.py:301-303. *)
Definition lerp (q0 q1 : SE2Transform) (alpha : R) : SE2Transform :=
  mkSE2T (vadd (vscale (1 - alpha) (t_p q0)) (vscale alpha (t_p q1))) (t_theta q0 * (1 - alpha) + t_theta q1 * alpha).
(** center_point_fast_SE2Transform, lanes.py:283-303. *)
Definition center_point_fast (cps : lanelet) (beta : R) : result SE2Transform :=
  let i := ifloor beta in
  if (i <? 0)%Z then bind (item cps 0) (fun c => Ok (lerp (cp_q c) (from_SE2 (ahead01 (as_SE2 (cp_q c)))) beta))
  else if (i >=? Z.of_nat (length cps) - 1)%Z then
    bind (item_last cps) (fun c => Ok (lerp (cp_q c) (from_SE2 (ahead01 (as_SE2 (cp_q c)))) (beta - last_beta cps)))
  else
    bind (item cps (Z.to_nat i)) (fun c0 => bind (item cps (Z.to_nat i + 1)) (fun c1 =>
    Ok (lerp (cp_q c0) (cp_q c1) (beta - IZR i)))).

(** DgLanePose, lanes.py:29-67. *)
Record lane_pose_t := mkLP {
  lp_inside : bool; lp_outside_left : bool; lp_outside_right : bool;
  lp_along_inside : bool; lp_along_before : bool; lp_along_after : bool;
  lp_lateral : R; lp_lateral_inside : bool; lp_along_lane : R; lp_relative_heading : R; lp_correct_direction : bool;
  lp_lateral_left : R; lp_lateral_right : R; lp_distance_from_left : R; lp_distance_from_right : R; lp_distance_from_center : R;
  lp_center_point : SE2Transform }.

(** lane_pose, lanes.py:173-209. *)
Definition lane_pose (cps : lanelet) (along_lane relative_heading lateral : R) : result lane_pose_t :=
  bind (beta_from_along_lane cps along_lane) (fun beta =>
  bind (center_point cps beta) (fun center =>
  bind (radius cps beta) (fun r =>
  let lateral_inside := leb (- r) lateral && leb lateral r in
  let outside_right := ltb lateral (- r) in
  let outside_left := ltb r lateral in
  let L := get_lane_length cps in
  let along_inside := leb 0 along_lane && ltb along_lane L in
  let along_before := ltb along_lane 0 in
  let along_after := ltb L along_lane in
  let inside := lateral_inside && along_inside in
  let correct_direction := leb (Rabs relative_heading) (PI / 2) in
  Ok (mkLP inside outside_left outside_right along_inside along_before along_after lateral lateral_inside along_lane relative_heading correct_direction
           r (- r) (Rabs (r - lateral)) (Rabs (- r - lateral)) (Rabs lateral) (from_SE2 center))))).

(** scipy.optimize.minimize_scalar(f, bracket, tol).x.
    Called in lanes.py:153 and lanes.py:168. *)
Definition minimizer : Type := (R -> R) -> R * R -> R -> R.
Section Min.
Variable minimize_scalar : minimizer.

(** A function that cannot fail on a non-empty lane, as minimised below.
    Used for [find_along_lane_closest_point], lanes.py:143-156; [find_along_lane_closest_point_fast], lanes.py:158-171. *)
Definition get_delta (p : vec) (q : result mat) : R :=
  match q with Ok q0 => vnorm (vsub p (translation_from_SE2 q0)) ^ 2 | Err _ => 0 end.

(** find_along_lane_closest_point, lanes.py:143-156.  On an empty lane the first
    evaluation of the function raises. *)
Definition find_along_lane_closest_point (cps : lanelet) (p : vec) (tol : R) (bracket : option (R * R)) : result (R * mat) :=
  let bracket := match bracket with None => (-1, INR (length cps)) | Some b => b end in
  bind (item cps 0) (fun _ =>
  let beta0 := minimize_scalar (fun beta => get_delta p (center_point cps beta)) bracket tol in
  bind (center_point cps beta0) (fun q => Ok (beta0, q))).

(** find_along_lane_closest_point_fast, lanes.py:158-171. *)
Definition find_along_lane_closest_point_fast (cps : lanelet) (p : vec) (tol : R) (bracket : option (R * R)) : result (R * mat) :=
  let bracket := match bracket with None => (0, last_beta cps) | Some b => b end in
  bind (item cps 0) (fun _ =>
  let beta0 := minimize_scalar (fun beta => get_delta p (match center_point_fast cps beta with Ok t => Ok (as_SE2 t) | Err e => Err e end)) bracket tol in
  bind (center_point_fast cps beta0) (fun q => Ok (beta0, as_SE2 q))).

(** lane_pose_from_SE2_generic, lanes.py:130-141. *)
Definition lane_pose_from_SE2_generic (cps : lanelet) (q : mat) (tol : R) : result lane_pose_t :=
  let p := translation_from_SE2 q in
  bind (find_along_lane_closest_point cps p tol None) (fun bq =>
  bind (along_lane_from_beta cps (fst bq)) (fun along_lane =>
  bind (relative_pose (snd bq) q) (fun rel =>
  lane_pose cps along_lane (angle_from_SE2 rel) (snd (translation_from_SE2 rel))))).
(** lane_pose_from_SE2Transform, lanes.py:127-128. *)
Definition lane_pose_from_SE2Transform (cps : lanelet) (qt : SE2Transform) (tol : R) : result lane_pose_t := lane_pose_from_SE2_generic cps (as_SE2 qt) tol.

(** is_inside_from_T2value, lanes.py:305-310. *)
Definition is_inside_from_T2value (cps : lanelet) (position : vec) (tol : R) : result bool :=
  bind (find_along_lane_closest_point cps position tol None) (fun bq =>
  let beta := fst bq in
  bind (radius cps beta) (fun r =>
  bind (center_point_fast cps beta) (fun c =>
  let lateral := vnorm (vsub (t_p c) position) in
  Ok (leb lateral r && (leb 0 beta && leb beta (last_beta cps)))))).

(** along_lane_from_T2value, lanes.py:312-319. *)
Definition along_lane_from_T2value (cps : lanelet) (position : vec) (tol : R) (bracket : option (R * R)) (fast : bool) : result R :=
  bind (if fast then find_along_lane_closest_point_fast cps position tol bracket else find_along_lane_closest_point cps position tol bracket) (fun bq =>
  along_lane_from_beta cps (fst bq)).
End Min.

(** np.linspace(0, stop, num).  Used for [lane_profile], lanes.py:321-337. *)
Definition linspace (stop : R) (num : nat) : list R :=
  match num with
  | O => []
  | S O => [0]
  | S m => map (fun k => INR k * (stop / INR m)) (seq 0 num)
  end.
Fixpoint mapM {A B} (f : A -> result B) (l : list A) : result (list B) :=
  match l with [] => Ok [] | x :: r => bind (f x) (fun y => bind (mapM f r) (fun ys => Ok (y :: ys))) end.
(** lane_profile, lanes.py:321-337 (without the cache); a lane without control
    points has n = -1, hence num <= 0: linspace raises for a negative number. *)
Definition lane_profile (cps : lanelet) (points_per_segment : nat) : result (list vec) :=
  match cps with
  | [] => match points_per_segment with O => Ok [] | _ => Err PyValueError end
  | _ =>
      let n := (length cps - 1)%nat in
      let betas := linspace (INR n) (n * points_per_segment) in
      bind (mapM (fun beta => bind (center_point cps beta) (fun q => bind (radius cps beta) (fun r => Ok (SE2_apply_T2 q (0, r), SE2_apply_T2 q (0, - r))))) betas) (fun ps =>
      Ok (map snd ps ++ rev (map fst ps)))
  end.

(** *** The cache: cachetools.cached with an LRUCache, lanes.py:108, 114, 321.
    The cache is the list of its entries from the least to the most recently
    used. *)
Section Cache.
Context {K V : Type} (keq : K -> K -> bool) (maxsize : nat).
Definition cache := list (K * V).
(** cache[key]: moves the entry to the end.
    Used for the decorated methods, lanes.py:108, lanes.py:114 and lanes.py:321. *)
Definition lru_get (c : cache) (k : K) : option (V * cache) :=
  match aget keq c k with Some v => Some (v, filter (fun e => negb (keq (fst e) k)) c ++ [(k, v)]) | None => None end.
(** cache[key] = value for a new key: evicts the least recently used entries.
    Used for the decorated methods, lanes.py:108, lanes.py:114 and lanes.py:321. *)
Definition lru_set (c : cache) (k : K) (v : V) : cache := skipn (length c + 1 - maxsize) c ++ (if (maxsize =? 0)%nat then [] else [(k, v)]).
(** The wrapper made by cached: [f] is the wrapped function at the time of the
    call.  lanes.py:108, lanes.py:114 and lanes.py:321. *)
Definition cached_call (f : K -> V) (c : cache) (k : K) : V * cache :=
  match lru_get c k with Some r => r | None => let v := f k in (v, lru_set c k v) end.
End Cache.

(** get_lanelets, lanes.py:108-112: the key of the call contains the list of
    points, which is not hashable. *)
Definition get_lanelets (points_hashable : bool) {A} (f : result A) : result A := if points_hashable then f else Err PyTypeError.
