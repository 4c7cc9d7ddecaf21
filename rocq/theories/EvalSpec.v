(** Vocabulary of the statements on evaluation metrics. *)
From Coq Require Import String Reals List Bool QArith Qcanon.
From Verif Require Import Base Num SeqModel SeqSpec R2 GeoModel LaneModel EvalModel.
Import ListNotations.

(** Within an optional time window, both ends included. *)
Definition in_range (r : trange) (t : Qc) : Prop :=
  (forall a, fst r = Some a -> a <= t)%Qc /\ (forall b, snd r = Some b -> t <= b)%Qc.

Open Scope R_scope.
(** Length of the broken line through a list of points. *)
Fixpoint path_length (l : list vec) : R :=
  match l with p :: ((q :: _) as r) => vdist p q + path_length r | _ => 0 end.

(** An exact scalar minimiser. *)
Definition exact_minimizer (m : minimizer) : Prop := forall f br tol, (exists x, forall y, f x <= f y) -> forall y, f (m f br tol) <= f y.
(** A straight lane from [p] in direction [th], of length [l] and half width [w]. *)
Definition straight (p : vec) (th l w : R) : lanelet := [mkCP (mkSE2T p th) w; mkCP (mkSE2T (vadd p (vscale l (cos th, sin th))) th) w].

(** One move of the search for the lane: a lane of the network that is the first
    successor or the first predecessor of the lane found at the second control point. *)
Definition linked (n : network) (d d' : lanelet) : Prop :=
  get_successor_dglane n d = Ok (Some d') \/ get_predecessor_dglane n d = Ok (Some d').
Inductive reachable (n : network) (d : lanelet) : lanelet -> Prop :=
| reach_0 : reachable n d d
| reach_s d' d'' : reachable n d d' -> linked n d' d'' -> reachable n d d''.

(** [x] is less than or equal to [y]. *)
Definition ext_le (x y : ext) : Prop :=
  match x, y with NInf, _ => True | _, PInf => True | Fn a, Fn b => a <= b | _, _ => False end.

(** A player which is logged at time [t] in state [x] and has not reached its goal. *)
Definition active {St Gl} (logs_at : Qc -> result (list (string * St))) (missions : list (string * Gl)) (is_fulfilled : Gl -> St -> result bool) (t : Qc) (name : string) (x : St) : Prop :=
  exists l g, logs_at t = Ok l /\ In (name, x) l /\ In (name, g) missions /\ is_fulfilled g x = Ok false.

(** The footprint of a vehicle with outline [o] whose pose is [p], [th]: every vertex
    turned by [th] and moved by [p]. *)
Definition footprint (o : polygon) (p : vec) (th : R) : polygon :=
  map (fun v => (fst p + cos th * fst v - sin th * snd v, snd p + sin th * fst v + cos th * snd v)) o.
(** Where a vehicle that keeps its speed and heading is after [t] seconds. *)
Definition coast (p : vec) (th v t : R) : vec := (fst p + t * v * cos th, snd p + t * v * sin th).
(** Moving two polygons together does not change whether they meet. *)
Definition translation_invariant (meet : polygon -> polygon -> bool) : Prop := forall p q d, meet (map (fun v => vadd v d) p) (map (fun v => vadd v d) q) = meet p q.

(** The corners of an axis-parallel box, and a test that is right about boxes, in
    whatever order their corners are listed. *)
Definition is_box (p : polygon) (x0 x1 y0 y1 : R) : Prop :=
  x0 <= x1 /\ y0 <= y1 /\ forall v, In v p <-> v = (x0, y0) \/ v = (x1, y0) \/ v = (x1, y1) \/ v = (x0, y1).
Definition right_on_boxes (meet : polygon -> polygon -> bool) : Prop :=
  forall p q x0 x1 y0 y1 a0 a1 b0 b1, is_box p x0 x1 y0 y1 -> is_box q a0 a1 b0 b1 ->
  (meet p q = true <-> x0 <= a1 /\ a0 <= x1 /\ y0 <= b1 /\ b0 <= y1).
(** Such a test: compare the bounding boxes. *)
Definition lowest (c : vec -> R) (p : polygon) : R := match p with [] => 0 | v :: r => fold_left (fun m w => Rmin m (c w)) r (c v) end.
Definition box_meet (p q : polygon) : bool :=
  let low c p := lowest c p in let high c p := - lowest (fun v => - c v) p in
  match p, q with
  | [], _ | _, [] => false
  | _, _ => leb (low fst p) (high fst q) && leb (low fst q) (high fst p) && leb (low snd p) (high snd q) && leb (low snd q) (high snd p)
  end.
(** A vehicle outline of length [2 a] and width [2 b]. *)
Definition car (a b : R) : polygon := [(a, b); (a, - b); (- a, - b); (- a, b)].

(** At time [t] the ego and another player, neither of which has reached its goal, are
    at distance [d]. *)
Definition apart {St Md Gl} (logs_at : Qc -> result (list (string * St))) (missions : list (string * Gl)) (models : list (string * Md)) (is_fulfilled : Gl -> St -> result bool)
  (pos : St -> vec) (psi : St -> R) (outline : Md -> polygon) (pdist : polygon -> polygon -> R) (ego : string) (t : Qc) (name : string) (d : R) : Prop :=
  exists xe x me m, active logs_at missions is_fulfilled t ego xe /\ active logs_at missions is_fulfilled t name x /\ name <> ego /\ In (ego, me) models /\ In (name, m) models /\
    d = pdist (footprint (outline me) (pos xe) (psi xe)) (footprint (outline m) (pos x) (psi x)).
(** Python dictionaries have each key once. *)
Definition dict {V} (l : list (string * V)) : Prop := NoDup (map fst l).

(** The centres of the two vehicles coincide, or they come closer at such a rate that
    they would meet within five seconds. *)
Definition closing {St} (pos : St -> vec) (vx psi : St -> R) (xe x : St) : Prop :=
  let d := vsub (pos x) (pos xe) in
  let w := vsub (vscale (vx x) (cos (psi x), sin (psi x))) (vscale (vx xe) (cos (psi xe), sin (psi xe))) in
  d = (0, 0) \/ (vdot w d < 0 /\ vdot d d <= 5 * - vdot w d).
(** At time [t] the ego and another closing player, neither of which has reached its
    goal, have time to collision [ttc] (see C65), and [dtc] is the ego's distance to
    the collision. *)
Definition rated {St Md Gl} (logs_at : Qc -> result (list (string * St))) (missions : list (string * Gl)) (models : list (string * Md)) (is_fulfilled : Gl -> St -> result bool)
  (pos : St -> vec) (vx psi : St -> R) (outline : Md -> polygon) (meet : polygon -> polygon -> bool) (ego : string) (t : Qc) (name : string) (v : R) (ttc dtc : ext) : Prop :=
  exists xe x me m dtc2, active logs_at missions is_fulfilled t ego xe /\ active logs_at missions is_fulfilled t name x /\ name <> ego /\ In (ego, me) models /\ In (name, m) models /\
    closing pos vx psi xe x /\ v = vx xe /\ get_ttc meet 32 (outline me) (outline m) (pos xe) (psi xe) (vx xe) (pos x) (psi x) (vx x) = Some (ttc, dtc, dtc2).
(** The constant deceleration that stops a vehicle of speed [v] within distance [d]:
    v^2 = 2 a d; none is needed for an infinite distance, and no finite one is enough
    if there is no distance left. *)
Definition needed (v : R) (d a : ext) : Prop :=
  match d with
  | Fn d => (0 < d /\ exists a', a = Fn a' /\ v ^ 2 = 2 * a' * d) \/ (d <= 0 /\ a = PInf)
  | PInf => a = Fn 0
  | NInf => a = PInf
  end.

(** The weighting of frequencies (ISO 2631-1). *)
Definition weight (f : R) : R := (1455 / 100 * f * f + 6026 / 1000 * f + 7725 / 1000) / (f * f * f + 1502 / 100 * f * f + 5163 / 100 * f + 4761 / 100).
