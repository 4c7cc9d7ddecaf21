(* Generated from tools/Road.src by tools/gen_props.py. *)
(** Properties of road boundaries. *)
From Coq Require Import Reals Lra Psatz List Bool Lia ZArith.
From Verif Require Import Base R2 LaneModel LaneProofs ScenarioModel RoadModel RoadSpec RoadProofs.
Import ListNotations.
Open Scope R_scope.
From Verif Require Import RoadMain.

(** ** C100 *)

(** There is one gate for each open end of the road and no other one. *)
Theorem C100_gates : forall P exterior interiors buffer_poly buffer_line unary_union difference lanelets buffer bounds (gates : list P),
  build_road_boundary_obstacle exterior interiors buffer_poly buffer_line unary_union difference lanelets buffer = Ok (bounds, gates) ->
  forall g, In g gates <-> exists a b, open_end lanelets a b /\ g = buffer_line a b (2 * buffer).
Proof. exact C100_gates_pf. Qed.
Print Assumptions C100_gates.

(** The boundaries are on the border of the road; all of the border outside of the gates is
    in them; inside a gate there is no boundary other than that of a hole. *)
Theorem C100_bounds_partial : forall P exterior interiors buffer_poly buffer_line unary_union difference inside covers lanelets buffer bounds (gates : list P),
  right_difference inside covers difference ->
  build_road_boundary_obstacle exterior interiors buffer_poly buffer_line unary_union difference lanelets buffer = Ok (bounds, gates) ->
  let road := unary_union (map (fun ll => buffer_poly (rl_polygon ll) buffer) lanelets) in
  forall p, let blocked := exists g, In g bounds /\ on g p in
    (blocked -> (outer exterior road p /\ forall q, In q gates -> ~ inside q p) \/ hole interiors road p) /\
    (outer exterior road p -> (forall q, In q gates -> ~ covers q p) -> blocked) /\ (hole interiors road p -> blocked).
Proof. exact C100_bounds_partial_pf. Qed.
Print Assumptions C100_bounds_partial.

(** Nothing blocks the lanes: if buffers contain what is nearer than [k] times their size,
    and no point of the border of a union is inside one of its members, the boundaries keep
    that distance from every point of every lanelet. *)
Theorem C100_lanes_clear : forall P exterior interiors buffer_poly buffer_line unary_union difference inside covers within k lanelets buffer bounds (gates : list P),
  right_difference inside covers difference ->
  (forall l r p x, within l x -> vdist p x < k * r -> inside (buffer_poly l r) p) ->
  (let polygons := map (fun ll => buffer_poly (rl_polygon ll) buffer) lanelets in forall p, outer exterior (unary_union polygons) p \/ hole interiors (unary_union polygons) p -> forall q, In q polygons -> ~ inside q p) ->
  build_road_boundary_obstacle exterior interiors buffer_poly buffer_line unary_union difference lanelets buffer = Ok (bounds, gates) ->
  forall g p ll x, In g bounds -> on g p -> In ll lanelets -> within (rl_polygon ll) x -> k * buffer <= vdist p x.
Proof. exact C100_lanes_clear_pf. Qed.
Print Assumptions C100_lanes_clear.

(** The open ends are open: no boundary other than that of a hole is nearer to one than [k]
    times the size of the gate. *)
Theorem C100_ends_open_partial : forall P exterior interiors buffer_poly buffer_line unary_union difference inside covers k lanelets buffer bounds (gates : list P),
  right_difference inside covers difference -> (forall a b r p x, on_segment a b x -> vdist p x < k * r -> inside (buffer_line a b r) p) ->
  build_road_boundary_obstacle exterior interiors buffer_poly buffer_line unary_union difference lanelets buffer = Ok (bounds, gates) ->
  forall g p a b x, In g bounds -> on g p -> open_end lanelets a b -> on_segment a b x -> k * (2 * buffer) <= vdist p x \/ hole interiors (unary_union (map (fun ll => buffer_poly (rl_polygon ll) buffer) lanelets)) p.
Proof. exact C100_ends_open_partial_pf. Qed.
Print Assumptions C100_ends_open_partial.

(** The border of a hole of the road is blocked all round, also in a gate. *)
Theorem C100_holes_refuted : forall P exterior interiors buffer_poly buffer_line unary_union difference lanelets buffer bounds (gates : list P) part r,
  build_road_boundary_obstacle exterior interiors buffer_poly buffer_line unary_union difference lanelets buffer = Ok (bounds, gates) ->
  In part (unary_union (map (fun ll => buffer_poly (rl_polygon ll) buffer) lanelets)) -> In r (interiors part) -> In (Ring r) bounds.
Proof. exact C100_holes_refuted_pf. Qed.
Print Assumptions C100_holes_refuted.

(** A road without open end has no boundaries but is an error. *)
Theorem C100_closed_refuted : forall P exterior interiors buffer_poly buffer_line unary_union difference lanelets buffer,
  (forall ll, In ll lanelets -> rl_successor ll <> [] /\ rl_predecessor ll <> []) -> unary_union (map (fun ll => buffer_poly (rl_polygon ll) buffer) lanelets) <> [] ->
  build_road_boundary_obstacle (P := P) exterior interiors buffer_poly buffer_line unary_union difference lanelets buffer = Err PyAttributeError.
Proof. exact C100_closed_refuted_pf. Qed.
Print Assumptions C100_closed_refuted.

(** So is every road with buffer 0, which is allowed: the buffer of a line is empty then and
    the outer border stays in one piece. *)
Theorem C100_zero_buffer_refuted : forall P exterior interiors buffer_poly buffer_line unary_union difference lanelets (empty : P),
  (forall a b, buffer_line a b 0 = empty) -> (forall l, exists l', difference (Ring l) empty = Ring l' \/ difference (Ring l) empty = Line l') -> (forall l, exists l', difference (Line l) empty = Line l') ->
  (forall ll, In ll lanelets -> rl_left ll <> [] /\ rl_right ll <> []) -> unary_union (map (fun ll => buffer_poly (rl_polygon ll) 0) lanelets) <> [] ->
  build_road_boundary_obstacle (P := P) exterior interiors buffer_poly buffer_line unary_union difference lanelets 0 = Err PyAttributeError.
Proof. exact C100_zero_buffer_refuted_pf. Qed.
Print Assumptions C100_zero_buffer_refuted.

(** Otherwise there are boundaries: if every lanelet has vertices and the gates cut the outer
    border of every part into several pieces. *)
Theorem C100_defined_partial : forall P exterior interiors buffer_poly buffer_line unary_union difference lanelets buffer,
  (forall ll, In ll lanelets -> rl_left ll <> [] /\ rl_right ll <> []) ->
  (forall part gates, In part (unary_union (map (fun ll => buffer_poly (rl_polygon ll) buffer) lanelets)) -> (forall g : P, In g gates <-> exists a b, open_end lanelets a b /\ g = buffer_line a b (2 * buffer)) -> exists ls, fold_left difference gates (Ring (exterior part)) = Lines ls) ->
  exists r, build_road_boundary_obstacle exterior interiors buffer_poly buffer_line unary_union difference lanelets buffer = Ok r.
Proof. exact C100_defined_partial_pf. Qed.
Print Assumptions C100_defined_partial.

(** A scenario with road boundaries: every obstacle besides the given ones keeps the distance
    from the lanes. *)
Theorem C100_scenario : forall P exterior interiors buffer_poly buffer_line (unary_union : list P -> list P) difference inside covers within k Obs shape_of of_bound lanelets given buffer (obs : list Obs) tree,
  right_difference inside covers difference ->
  (forall l r p x, within l x -> vdist p x < k * r -> inside (buffer_poly l r) p) ->
  (let polygons := map (fun ll => buffer_poly (rl_polygon ll) buffer) lanelets in forall p, outer exterior (unary_union polygons) p \/ hole interiors (unary_union polygons) p -> forall q, In q polygons -> ~ inside q p) ->
  (forall b, shape_of (of_bound b) = b) ->
  dg_scenario shape_of of_bound (fun s r => bind (build_road_boundary_obstacle exterior interiors buffer_poly buffer_line unary_union difference s r) (fun bg => Ok (fst bg))) (Some lanelets) (Some given) true buffer = Ok (obs, tree) ->
  0 <= buffer /\ exists extra, obs = given ++ extra /\ forall o p ll x, In o extra -> on (shape_of o) p -> In ll lanelets -> within (rl_polygon ll) x -> k * buffer <= vdist p x.
Proof. exact C100_scenario_pf. Qed.
Print Assumptions C100_scenario.

(** A straight road: all the hypotheses hold, and there are boundaries. *)
Example C100_ex : let within l x := l <> [] /\ b_covers (bounding l 0) x in let polygons := map (fun ll => bounding (rl_polygon ll) (1 / 10)) ex_road in
  right_difference b_inside b_covers b_difference /\ (forall l r p x, within l x -> vdist p x < 1 * r -> b_inside (bounding l r) p) /\
  (forall a b r p x, on_segment a b x -> vdist p x < 1 * r -> b_inside (b_buffer_line a b r) p) /\
  (forall p, outer b_exterior polygons p \/ hole b_interiors polygons p -> forall q, In q polygons -> ~ b_inside q p) /\
  exists bounds gates, build_road_boundary_obstacle b_exterior b_interiors bounding b_buffer_line (fun l => l) b_difference ex_road (1 / 10) = Ok (bounds, gates) /\ length gates = 2%nat /\ outer b_exterior polygons (5, - (1 / 10)) /\ forall q, In q gates -> ~ b_covers q (5, - (1 / 10)).
Proof.
  intros within polygons. split; [|split; [|split; [|split]]].
  - intros g q p. split; [apply b_difference_on|]. intros O N. apply b_difference_on. split; [exact O|]. intro I. apply N. unfold b_inside, b_covers in *. lra.
  - intros l r p x [N C] H. rewrite Rmult_1_l in H. exact (bounding_grows l r p x C N H).
  - intros a b r p x (t & T & ->) H. rewrite Rmult_1_l in H. apply (bounding_grows [a; b] r p _) in H; [exact H| |discriminate]. destruct a as [a1 a2], b as [b1 b2]. unfold b_covers, bounding, vadd, vscale. cbn [map fold_right fst snd]. pose proof (Rmin_l b1 a1). pose proof (Rmin_r b1 a1). pose proof (Rmax_l b1 a1). pose proof (Rmax_r b1 a1). pose proof (Rmin_l b2 a2). pose proof (Rmin_r b2 a2). pose proof (Rmax_l b2 a2). pose proof (Rmax_r b2 a2).
    set (m1 := Rmin b1 a1) in *. set (m2 := Rmin b2 a2) in *. set (M1 := Rmax b1 a1) in *. set (M2 := Rmax b2 a2) in *. split; split; nra.
  - intros p H q [<-|[]]. destruct H as [(part & [<-|[]] & O)|(part & r & _ & [] & _)]. exact (ring_not_inside _ p O).
  - eexists. eexists. split; [reflexivity|]. split; [reflexivity|]. split.
    + eexists. split; [left; reflexivity|]. apply on_combine. cbn [map rl_polygon]. unfold bounding. cbn [map fst snd fold_right b_exterior]. cbn [tl combine]. eexists. eexists. split; [left; reflexivity|]. exists (1 / 2). unfold Rmin, Rmax. repeat destruct (Rle_dec _ _); try lra; split; try lra; unfold vadd, vscale; cbn [fst snd]; f_equal; lra.
    + intros q [<-|[<-|[]]]; unfold b_covers, b_buffer_line, bounding; cbn [map fst snd fold_right]; unfold Rmin, Rmax; repeat destruct (Rle_dec _ _); lra.
Qed.

(** Polygons without area: the hypotheses on empty buffers hold. *)
Example C100_zero_ex : (forall a b : vec, (fun (_ _ : vec) (_ : R) => tt) a b 0 = tt) /\ (forall l, exists l', (fun (g : line) (_ : unit) => g) (Ring l) tt = Ring l' \/ (fun (g : line) (_ : unit) => g) (Ring l) tt = Line l') /\ (forall l, exists l', (fun (g : line) (_ : unit) => g) (Line l) tt = Line l') /\
  forall ll, In ll ex_road -> rl_left ll <> [] /\ rl_right ll <> [].
Proof. split; [reflexivity|]. split; [intro l; exists l; left; reflexivity|]. split; [intro l; exists l; reflexivity|]. intros ll [<-|[]]. split; discriminate. Qed.
