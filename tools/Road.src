(** Properties of road boundaries. *)
From Coq Require Import Reals Lra Psatz List Bool Lia ZArith.
From Verif Require Import Base R2 LaneModel LaneProofs ScenarioModel RoadModel RoadSpec RoadProofs.
Import ListNotations.
Open Scope R_scope.
(* BODY *)

(** ** C100 *)

(** There is one gate for each open end of the road and no other one. *)
Theorem C100_gates : forall P exterior interiors buffer_poly buffer_line unary_union difference lanelets buffer bounds (gates : list P),
  build_road_boundary_obstacle exterior interiors buffer_poly buffer_line unary_union difference lanelets buffer = Ok (bounds, gates) ->
  forall g, In g gates <-> exists a b, open_end lanelets a b /\ g = buffer_line a b (2 * buffer).
Proof. intros. revert g. eapply build_ok. eassumption. Qed.

(** The boundaries are on the border of the road; all of the border outside of the gates is
    in them; inside a gate there is no boundary other than that of a hole. *)
Theorem C100_bounds_partial : forall P exterior interiors buffer_poly buffer_line unary_union difference inside covers lanelets buffer bounds (gates : list P),
  right_difference inside covers difference ->
  build_road_boundary_obstacle exterior interiors buffer_poly buffer_line unary_union difference lanelets buffer = Ok (bounds, gates) ->
  let road := unary_union (map (fun ll => buffer_poly (rl_polygon ll) buffer) lanelets) in
  forall p, let blocked := exists g, In g bounds /\ on g p in
    (blocked -> (outer exterior road p /\ forall q, In q gates -> ~ inside q p) \/ hole interiors road p) /\
    (outer exterior road p -> (forall q, In q gates -> ~ covers q p) -> blocked) /\ (hole interiors road p -> blocked).
Proof.
  intros P exterior interiors buffer_poly buffer_line unary_union difference inside covers lanelets buffer bounds gates D B road p. cbv zeta. apply build_ok in B. destruct B as [_ B]. fold road in B. destruct (parts_ok exterior interiors difference gates road bounds B) as (A & L & K). split; [|split].
  - intros (g & I & O). destruct (K g I) as [(r & ->)|(l & ->)].
    + right. apply A in I. destruct I as (part & I & J). exists part, r. auto.
    + left. destruct (proj1 (L p)) as (part & I' & J); [eauto|]. apply (fold_difference difference inside covers D) in J. destruct J as [J N]. split; [exists part; auto|exact N].
  - intros (part & I & O) N. destruct (proj2 (L p)) as (l & I' & J); [|exists (Line l); auto]. exists part. split; [exact I|]. apply (fold_difference difference inside covers D); [exact O|exact N].
  - intros (part & r & I & J & O). exists (Ring r). split; [apply A; eauto|exact O].
Qed.

(** Nothing blocks the lanes: if buffers contain what is nearer than [k] times their size,
    and no point of the border of a union is inside one of its members, the boundaries keep
    that distance from every point of every lanelet. *)
Theorem C100_lanes_clear : forall P exterior interiors buffer_poly buffer_line unary_union difference inside covers within k lanelets buffer bounds (gates : list P),
  right_difference inside covers difference ->
  (forall l r p x, within l x -> vdist p x < k * r -> inside (buffer_poly l r) p) ->
  (let polygons := map (fun ll => buffer_poly (rl_polygon ll) buffer) lanelets in forall p, outer exterior (unary_union polygons) p \/ hole interiors (unary_union polygons) p -> forall q, In q polygons -> ~ inside q p) ->
  build_road_boundary_obstacle exterior interiors buffer_poly buffer_line unary_union difference lanelets buffer = Ok (bounds, gates) ->
  forall g p ll x, In g bounds -> on g p -> In ll lanelets -> within (rl_polygon ll) x -> k * buffer <= vdist p x.
Proof.
  intros P exterior interiors buffer_poly buffer_line unary_union difference inside covers within k lanelets buffer bounds gates D W U B g p ll x I O J X. cbv zeta in U.
  destruct (Rle_lt_dec (k * buffer) (vdist p x)) as [H|H]; [exact H|exfalso]. apply (W (rl_polygon ll) buffer p x X) in H. revert H. apply (U p); [|apply in_map_iff; eauto].
  pose proof (C100_bounds_partial _ _ _ _ _ _ _ _ _ _ _ _ _ D B p) as [H _]. destruct H as [[H _]|H]; eauto.
Qed.

(** The open ends are open: no boundary other than that of a hole is nearer to one than [k]
    times the size of the gate. *)
Theorem C100_ends_open_partial : forall P exterior interiors buffer_poly buffer_line unary_union difference inside covers k lanelets buffer bounds (gates : list P),
  right_difference inside covers difference -> (forall a b r p x, on_segment a b x -> vdist p x < k * r -> inside (buffer_line a b r) p) ->
  build_road_boundary_obstacle exterior interiors buffer_poly buffer_line unary_union difference lanelets buffer = Ok (bounds, gates) ->
  forall g p a b x, In g bounds -> on g p -> open_end lanelets a b -> on_segment a b x -> k * (2 * buffer) <= vdist p x \/ hole interiors (unary_union (map (fun ll => buffer_poly (rl_polygon ll) buffer) lanelets)) p.
Proof.
  intros P exterior interiors buffer_poly buffer_line unary_union difference inside covers k lanelets buffer bounds gates D W B g p a b x I O E X.
  pose proof (C100_bounds_partial _ _ _ _ _ _ _ _ _ _ _ _ _ D B p) as [H _]. destruct H as [[_ N]|H]; [eauto| |right; exact H]. left. destruct (Rle_lt_dec (k * (2 * buffer)) (vdist p x)) as [L|L]; [exact L|exfalso]. apply (W a b (2 * buffer) p x X) in L. revert L. apply N. eapply (C100_gates _ _ _ _ _ _ _ _ _ _ _ B). eauto.
Qed.

(** The border of a hole of the road is blocked all round, also in a gate. *)
Theorem C100_holes_refuted : forall P exterior interiors buffer_poly buffer_line unary_union difference lanelets buffer bounds (gates : list P) part r,
  build_road_boundary_obstacle exterior interiors buffer_poly buffer_line unary_union difference lanelets buffer = Ok (bounds, gates) ->
  In part (unary_union (map (fun ll => buffer_poly (rl_polygon ll) buffer) lanelets)) -> In r (interiors part) -> In (Ring r) bounds.
Proof. intros. apply build_ok in H. destruct H as [_ H]. apply (parts_ok _ _ _ _ _ _ H). eauto. Qed.

(** A road without open end has no boundaries but is an error. *)
Theorem C100_closed_refuted : forall P exterior interiors buffer_poly buffer_line unary_union difference lanelets buffer,
  (forall ll, In ll lanelets -> rl_successor ll <> [] /\ rl_predecessor ll <> []) -> unary_union (map (fun ll => buffer_poly (rl_polygon ll) buffer) lanelets) <> [] ->
  build_road_boundary_obstacle (P := P) exterior interiors buffer_poly buffer_line unary_union difference lanelets buffer = Err PyAttributeError.
Proof.
  intros P exterior interiors buffer_poly buffer_line unary_union difference lanelets buffer H N. unfold build_road_boundary_obstacle.
  assert (L : lanelets_loop buffer_poly buffer_line buffer lanelets = Ok (map (fun ll => buffer_poly (rl_polygon ll) buffer) lanelets, [])).
  { clear N. induction lanelets as [|ll r IH]; [reflexivity|]. cbn [lanelets_loop map]. rewrite IH by (intros x I; apply H; right; exact I). destruct (H ll (or_introl eq_refl)) as [S Q]. unfold gates_of. destruct (rl_successor ll); [contradiction|]. destruct (rl_predecessor ll); [contradiction|]. reflexivity. }
  rewrite L. cbn [bind fst snd]. destruct (unary_union _) as [|g r]; [contradiction|]. reflexivity.
Qed.

(** So is every road with buffer 0, which is allowed: the buffer of a line is empty then and
    the outer border stays in one piece. *)
Theorem C100_zero_buffer_refuted : forall P exterior interiors buffer_poly buffer_line unary_union difference lanelets (empty : P),
  (forall a b, buffer_line a b 0 = empty) -> (forall l, exists l', difference (Ring l) empty = Ring l' \/ difference (Ring l) empty = Line l') -> (forall l, exists l', difference (Line l) empty = Line l') ->
  (forall ll, In ll lanelets -> rl_left ll <> [] /\ rl_right ll <> []) -> unary_union (map (fun ll => buffer_poly (rl_polygon ll) 0) lanelets) <> [] ->
  build_road_boundary_obstacle (P := P) exterior interiors buffer_poly buffer_line unary_union difference lanelets 0 = Err PyAttributeError.
Proof.
  intros P exterior interiors buffer_poly buffer_line unary_union difference lanelets empty E R L V N. unfold build_road_boundary_obstacle. destruct (lanelets_defined buffer_poly buffer_line 0 lanelets V) as (ps & gs & LL). rewrite LL. apply lanelets_ok in LL. destruct LL as [-> G]. cbn [bind fst snd].
  destruct (unary_union _) as [|g r]; [contradiction|]. cbn [parts_loop]. cbv zeta.
  assert (X : forall gs l, (forall g, In g gs -> g = empty) -> (exists l', l = Ring l' \/ l = Line l') -> exists l', fold_left difference gs l = Ring l' \/ fold_left difference gs l = Line l').
  { clear -R L. induction gs as [|g gs IH]; intros l H (l' & X); cbn [fold_left]; [eauto|]. apply IH; [intros x I; apply H; right; exact I|]. rewrite (H g (or_introl eq_refl)). destruct X as [->| ->]; [apply R|]. destruct (L l') as [k ->]. eauto. }
  destruct (X gs (Ring (exterior g))) as (l' & [-> | ->]); [|eauto|reflexivity|reflexivity]. intros q I. apply G in I. destruct I as (a & b & _ & ->). rewrite Rmult_0_r. apply E.
Qed.

(** Otherwise there are boundaries: if every lanelet has vertices and the gates cut the outer
    border of every part into several pieces. *)
Theorem C100_defined_partial : forall P exterior interiors buffer_poly buffer_line unary_union difference lanelets buffer,
  (forall ll, In ll lanelets -> rl_left ll <> [] /\ rl_right ll <> []) ->
  (forall part gates, In part (unary_union (map (fun ll => buffer_poly (rl_polygon ll) buffer) lanelets)) -> (forall g : P, In g gates <-> exists a b, open_end lanelets a b /\ g = buffer_line a b (2 * buffer)) -> exists ls, fold_left difference gates (Ring (exterior part)) = Lines ls) ->
  exists r, build_road_boundary_obstacle exterior interiors buffer_poly buffer_line unary_union difference lanelets buffer = Ok r.
Proof.
  intros P exterior interiors buffer_poly buffer_line unary_union difference lanelets buffer V D. unfold build_road_boundary_obstacle. destruct (lanelets_defined buffer_poly buffer_line buffer lanelets V) as (ps & gs & LL). rewrite LL. apply lanelets_ok in LL. destruct LL as [-> G]. cbn [bind fst snd].
  assert (X : forall parts, (forall part, In part parts -> exists ls, fold_left difference gs (Ring (exterior part)) = Lines ls) -> exists b, parts_loop exterior interiors difference gs parts = Ok b).
  { clear. induction parts as [|p r IH]; intro H; cbn [parts_loop]; [eauto|]. cbv zeta. destruct (H p (or_introl eq_refl)) as [ls ->]. cbn [geoms bind]. destruct IH as [b ->]; [intros x I; apply H; right; exact I|]. cbn [bind]. eauto. }
  destruct (X _ (fun part I => D part gs I G)) as [b ->]. cbn [bind]. eauto.
Qed.

(** A scenario with road boundaries: every obstacle besides the given ones keeps the distance
    from the lanes. *)
Theorem C100_scenario : forall P exterior interiors buffer_poly buffer_line (unary_union : list P -> list P) difference inside covers within k Obs shape_of of_bound lanelets given buffer (obs : list Obs) tree,
  right_difference inside covers difference ->
  (forall l r p x, within l x -> vdist p x < k * r -> inside (buffer_poly l r) p) ->
  (let polygons := map (fun ll => buffer_poly (rl_polygon ll) buffer) lanelets in forall p, outer exterior (unary_union polygons) p \/ hole interiors (unary_union polygons) p -> forall q, In q polygons -> ~ inside q p) ->
  (forall b, shape_of (of_bound b) = b) ->
  dg_scenario shape_of of_bound (fun s r => bind (build_road_boundary_obstacle exterior interiors buffer_poly buffer_line unary_union difference s r) (fun bg => Ok (fst bg))) (Some lanelets) (Some given) true buffer = Ok (obs, tree) ->
  0 <= buffer /\ exists extra, obs = given ++ extra /\ forall o p ll x, In o extra -> on (shape_of o) p -> In ll lanelets -> within (rl_polygon ll) x -> k * buffer <= vdist p x.
Proof.
  intros P exterior interiors buffer_poly buffer_line unary_union difference inside covers within k Obs shape_of of_bound lanelets given buffer obs tree D W U S H. unfold dg_scenario in H. destruct (leb 0 buffer) eqn:L; [|discriminate]. apply leb_iff in L. split; [exact L|].
  destruct (build_road_boundary_obstacle _ _ _ _ _ _ _ _) as [[bounds gates]|] eqn:B; [cbn [bind fst] in H|discriminate]. injection H as <- _. exists (map of_bound bounds). split; [reflexivity|]. intros o p ll x I O J X. apply in_map_iff in I. destruct I as (b & <- & I). rewrite S in O. exact (C100_lanes_clear _ _ _ _ _ _ _ _ _ _ _ _ _ _ _ D W U B b p ll x I O J X).
Qed.

(** Boxes as polygons, for an example of all this. *)
Definition box : Type := vec * vec.

Definition b_inside (q : box) (p : vec) : Prop := fst (fst q) < fst p < fst (snd q) /\ snd (fst q) < snd p < snd (snd q).

Definition b_covers (q : box) (p : vec) : Prop := fst (fst q) <= fst p <= fst (snd q) /\ snd (fst q) <= snd p <= snd (snd q).

Definition b_exterior (q : box) : list vec := let '((x0, y0), (x1, y1)) := q in [(x0, y0); (x1, y0); (x1, y1); (x0, y1); (x0, y0)].

Definition b_interiors (q : box) : list (list vec) := [].

Definition bounding (l : list vec) (r : R) : box :=
  match l with
  | [] => ((0, 0), (0, 0))
  | a :: k => ((fold_right Rmin (fst a) (map fst k) - r, fold_right Rmin (snd a) (map snd k) - r), (fold_right Rmax (fst a) (map fst k) + r, fold_right Rmax (snd a) (map snd k) + r))
  end.

Definition b_buffer_line (a b : vec) (r : R) : box := bounding [a; b] r.

(** The part of a segment with 0 <= h. *)
Definition cut (h : vec -> R) (a b : vec) : list (list vec) :=
  let c := let t := h a / (h a - h b) in vadd (vscale (1 - t) a) (vscale t b) in
  if Rle_dec 0 (h a) then if Rle_dec 0 (h b) then [[a; b]] else [[a; c]] else if Rle_dec 0 (h b) then [[c; b]] else [].

Definition sides (q : box) : list (vec -> R) := [fun p => fst (fst q) - fst p; fun p => fst p - fst (snd q); fun p => snd (fst q) - snd p; fun p => snd p - snd (snd q)].

Definition paths (g : line) : list (list vec) := match g with Ring l | Line l => [l] | Lines ls => ls end.

Definition b_difference (g : line) (q : box) : line := Lines (concat (map (fun l => concat (map (fun ab => concat (map (fun h => cut h (fst ab) (snd ab)) (sides q))) (combine l (tl l)))) (paths g))).

Lemma on_paths g p : on g p <-> exists l, In l (paths g) /\ on_path l p.
Proof. destruct g; cbn [on paths]; split; try (intro H; eexists; split; [left; reflexivity|exact H]); try (intros (x & [<-|[]] & H); exact H); auto. Qed.

Lemma on_combine l p : on_path l p <-> exists a b, In (a, b) (combine l (tl l)) /\ on_segment a b p.
Proof.
  induction l as [|a l IH].
  - split; [intros ([|i] & a & b & H & _); discriminate|intros (a & b & [] & _)].
  - destruct l as [|b l].
    + split; [intros ([|[|i]] & x & y & H1 & H2 & _); discriminate|intros (x & y & [] & _)].
    + change (combine (a :: b :: l) (tl (a :: b :: l))) with ((a, b) :: combine (b :: l) (tl (b :: l))). split.
      * intros ([|i] & x & y & H1 & H2 & H3).
        -- injection H1 as <-. injection H2 as <-. exists a, b. split; [left; reflexivity|exact H3].
        -- destruct (proj1 IH) as (x' & y' & I & H); [exists i, x, y; auto|]. exists x', y'. split; [right; exact I|exact H].
      * intros (x & y & [E|I] & O).
        -- injection E as <- <-. exists 0%nat, a, b. split; [reflexivity|]. split; [reflexivity|exact O].
        -- destruct (proj2 IH) as (i & x' & y' & H1 & H2 & H3); [eauto|]. exists (S i), x', y'. auto.
Qed.

Lemma on_two a b p : on_path [a; b] p <-> on_segment a b p.
Proof. rewrite on_combine. cbn [tl combine]. split; [intros (x & y & [E|[]] & O); injection E as <- <-; exact O|intro H; exists a, b; split; [left; reflexivity|exact H]]. Qed.

Definition affine (h : vec -> R) : Prop := forall a b t, h (vadd (vscale (1 - t) a) (vscale t b)) = (1 - t) * h a + t * h b.

Lemma sub_segment a b s t u : vadd (vscale (1 - u) (vadd (vscale (1 - s) a) (vscale s b))) (vscale u (vadd (vscale (1 - t) a) (vscale t b))) = vadd (vscale (1 - ((1 - u) * s + u * t)) a) (vscale ((1 - u) * s + u * t) b).
Proof. destruct a, b. unfold vadd, vscale. cbn [fst snd]. f_equal; ring. Qed.

Lemma ends_seg a b : a = vadd (vscale (1 - 0) a) (vscale 0 b) /\ b = vadd (vscale (1 - 1) a) (vscale 1 b).
Proof. destruct a, b. unfold vadd, vscale. cbn [fst snd]. split; f_equal; ring. Qed.

Lemma cut_ok h a b p : affine h -> (exists l, In l (cut h a b) /\ on_path l p) <-> on_segment a b p /\ 0 <= h p.
Proof.
  intro A. destruct (ends_seg a b) as [EA EB].
  assert (PART : forall s t, 0 <= s -> s <= t -> t <= 1 -> forall p, on_segment (vadd (vscale (1 - s) a) (vscale s b)) (vadd (vscale (1 - t) a) (vscale t b)) p <-> exists u, s <= u <= t /\ p = vadd (vscale (1 - u) a) (vscale u b)).
  { intros s t S ST T q. split.
    - intros (u & U & ->). rewrite sub_segment. eexists. split; [|reflexivity]. nra.
    - intros (u & U & ->). destruct (Req_dec s t) as [->|N].
      + exists 0. split; [lra|]. rewrite sub_segment. replace u with t by lra. replace ((1 - 0) * t + 0 * t) with t by ring. reflexivity.
      + exists ((u - s) / (t - s)). assert (F : (1 - (u - s) / (t - s)) * s + (u - s) / (t - s) * t = u) by (field; lra). split; [|rewrite sub_segment, F; reflexivity]. split; [apply Rmult_le_pos; [lra|apply Rlt_le, Rinv_0_lt_compat; lra]|]. apply (Rmult_le_reg_r (t - s)); [lra|]. unfold Rdiv. rewrite Rmult_assoc, Rinv_l by lra. lra. }
  unfold cut. cbv zeta. set (t := h a / (h a - h b)).
  destruct (Rle_dec 0 (h a)) as [HA|HA]; destruct (Rle_dec 0 (h b)) as [HB|HB].
  - split.
    + intros (l & [<-|[]] & H). apply on_two in H. split; [exact H|]. destruct H as (u & U & ->). rewrite A. nra.
    + intros [H _]. exists [a; b]. split; [left; reflexivity|apply on_two; exact H].
  - assert (TD : t * (h a - h b) = h a) by (unfold t; field; lra). assert (T : 0 <= t <= 1) by (split; apply (Rmult_le_reg_r (h a - h b)); lra).
    split.
    + intros (l & [<-|[]] & H). apply on_two in H. rewrite EA in H at 1. apply PART in H; try lra. destruct H as (u & U & ->). split; [exists u; split; [lra|reflexivity]|]. rewrite A. nra.
    + intros [(u & U & ->) H]. rewrite A in H. eexists. split; [left; reflexivity|]. apply on_two. rewrite EA at 1. apply PART; try lra. exists u. split; [|reflexivity]. split; [lra|]. apply (Rmult_le_reg_r (h a - h b)); lra.
  - assert (TD : t * (h a - h b) = h a) by (unfold t; field; lra). assert (T : 0 <= t <= 1) by (split; apply (Rmult_le_reg_r (h b - h a)); lra).
    split.
    + intros (l & [<-|[]] & H). apply on_two in H. rewrite EB in H at 2. apply PART in H; try lra. destruct H as (u & U & ->). split; [exists u; split; [lra|reflexivity]|]. rewrite A. nra.
    + intros [(u & U & ->) H]. rewrite A in H. eexists. split; [left; reflexivity|]. apply on_two. rewrite EB at 2. apply PART; try lra. exists u. split; [|reflexivity]. split; [|lra]. apply (Rmult_le_reg_r (h b - h a)); lra.
  - split; [intros (l & [] & _)|]. intros [(u & U & ->) H]. rewrite A in H. nra.
Qed.

Lemma side_affine q h : In h (sides q) -> affine h.
Proof. intros [<-|[<-|[<-|[<-|[]]]]] a b t; unfold vadd, vscale; cbn [fst snd]; ring. Qed.

Lemma not_inside q p : ~ b_inside q p <-> exists h, In h (sides q) /\ 0 <= h p.
Proof.
  unfold b_inside, sides. split.
  - intro N. destruct (Rle_lt_dec (fst p) (fst (fst q))); [eexists; split; [left; reflexivity|lra]|]. destruct (Rle_lt_dec (fst (snd q)) (fst p)); [eexists; split; [right; left; reflexivity|lra]|].
    destruct (Rle_lt_dec (snd p) (snd (fst q))); [eexists; split; [right; right; left; reflexivity|lra]|]. destruct (Rle_lt_dec (snd (snd q)) (snd p)); [eexists; split; [right; right; right; left; reflexivity|lra]|]. exfalso. apply N. lra.
  - intros (h & [<-|[<-|[<-|[<-|[]]]]] & H); lra.
Qed.

Lemma b_difference_on g q p : on (b_difference g q) p <-> on g p /\ ~ b_inside q p.
Proof.
  rewrite (on_paths g), not_inside. cbn [on b_difference]. split.
  - intros (x & I & O). apply in_concat in I. destruct I as (y & I & J). apply in_map_iff in I. destruct I as (l & <- & I). apply in_concat in J. destruct J as (z & J & K). apply in_map_iff in J. destruct J as ([a b] & <- & J). apply in_concat in K. destruct K as (w & K & M). apply in_map_iff in K. destruct K as (h & <- & K). cbn [fst snd] in M.
    destruct (proj1 (cut_ok h a b p (side_affine q h K))) as [S H]; [eauto|]. split; [|eauto]. exists l. split; [exact I|]. apply on_combine. eauto.
  - intros [(l & I & O) (h & K & H)]. apply on_combine in O. destruct O as (a & b & J & S). destruct (proj2 (cut_ok h a b p (side_affine q h K))) as (x & M & O); [auto|]. exists x. split; [|exact O]. apply in_concat. eexists. split; [apply in_map_iff; exists l; split; [reflexivity|exact I]|]. apply in_concat. eexists. split; [apply in_map_iff; exists (a, b); split; [reflexivity|exact J]|]. apply in_concat. eexists. split; [apply in_map_iff; exists h; split; [reflexivity|exact K]|]. exact M.
Qed.

Lemma near_coordinates p x r : vdist p x < r -> - r < fst p - fst x < r /\ - r < snd p - snd x < r.
Proof.
  unfold vdist, vnorm. intro H. set (d := vsub p x) in *. change (fst p - fst x) with (fst d). change (snd p - snd x) with (snd d). pose proof (sqrt_sqrt _ (vdot_self_nonneg d)) as S. pose proof (sqrt_pos (vdot d d)) as N. set (n := sqrt (vdot d d)) in *. unfold vdot in S. split; split; nra.
Qed.

Lemma bounding_grows l r p x : b_covers (bounding l 0) x -> l <> [] -> vdist p x < r -> b_inside (bounding l r) p.
Proof. intros C N H. apply near_coordinates in H. destruct l as [|a l]; [contradiction|]. unfold b_covers, b_inside, bounding in *. cbn [fst snd] in *. lra. Qed.

Lemma ring_not_inside q p : on_path (b_exterior q) p -> ~ b_inside q p.
Proof.
  intro O. apply on_combine in O. destruct q as [[x0 y0] [x1 y1]], O as (a & b & I & (t & T & ->)). cbn [b_exterior tl combine] in I. unfold b_inside, vadd, vscale.
  destruct I as [E|[E|[E|[E|[]]]]]; injection E as <- <-; cbn [fst snd]; intros [? ?]; nra.
Qed.

Definition ex_road : list road_lanelet := [mkRL [(0, 0); (10, 0); (10, 4); (0, 4)] [(0, 4); (10, 4)] [(0, 0); (10, 0)] [] []].

(** A straight road: all the hypotheses hold, and there are boundaries. *)
Example C100_ex : let within l x := l <> [] /\ b_covers (bounding l 0) x in let polygons := map (fun ll => bounding (rl_polygon ll) (1 / 10)) ex_road in
  right_difference b_inside b_covers b_difference /\ (forall l r p x, within l x -> vdist p x < 1 * r -> b_inside (bounding l r) p) /\
  (forall a b r p x, on_segment a b x -> vdist p x < 1 * r -> b_inside (b_buffer_line a b r) p) /\
  (forall p, outer b_exterior polygons p \/ hole b_interiors polygons p -> forall q, In q polygons -> ~ b_inside q p) /\
  exists bounds gates, build_road_boundary_obstacle b_exterior b_interiors bounding b_buffer_line (fun l => l) b_difference ex_road (1 / 10) = Ok (bounds, gates) /\ length gates = 2%nat /\ outer b_exterior polygons (5, - (1 / 10)) /\ forall q, In q gates -> ~ b_covers q (5, - (1 / 10)).
Proof.
  intros within polygons. split; [|split; [|split; [|split]]].
  - intros g q p. split; [apply b_difference_on|]. intros O N. apply b_difference_on. split; [exact O|]. intro I. apply N. unfold b_inside, b_covers in *. lra.
  - intros l r p x [N C] H. rewrite Rmult_1_l in H. exact (bounding_grows l r p x C N H).
  - intros a b r p x (t & T & ->) H. rewrite Rmult_1_l in H. apply (bounding_grows [a; b] r p _) in H; [exact H| |discriminate]. destruct a as [a1 a2], b as [b1 b2]. unfold b_covers, bounding, vadd, vscale. cbn [map fold_right fst snd]. pose proof (Rmin_l b1 a1). pose proof (Rmin_r b1 a1). pose proof (Rmax_l b1 a1). pose proof (Rmax_r b1 a1). pose proof (Rmin_l b2 a2). pose proof (Rmin_r b2 a2). pose proof (Rmax_l b2 a2). pose proof (Rmax_r b2 a2).
    set (m1 := Rmin b1 a1) in *. set (m2 := Rmin b2 a2) in *. set (M1 := Rmax b1 a1) in *. set (M2 := Rmax b2 a2) in *. split; split; nra.
  - intros p H q [<-|[]]. destruct H as [(part & [<-|[]] & O)|(part & r & _ & [] & _)]. exact (ring_not_inside _ p O).
  - eexists. eexists. split; [reflexivity|]. split; [reflexivity|]. split.
    + eexists. split; [left; reflexivity|]. apply on_combine. cbn [map rl_polygon]. unfold bounding. cbn [map fst snd fold_right b_exterior]. cbn [tl combine]. eexists. eexists. split; [left; reflexivity|]. exists (1 / 2). unfold Rmin, Rmax. repeat destruct (Rle_dec _ _); try lra; split; try lra; unfold vadd, vscale; cbn [fst snd]; f_equal; lra.
    + intros q [<-|[<-|[]]]; unfold b_covers, b_buffer_line, bounding; cbn [map fst snd fold_right]; unfold Rmin, Rmax; repeat destruct (Rle_dec _ _); lra.
Qed.

(** Polygons without area: the hypotheses on empty buffers hold. *)
Example C100_zero_ex : (forall a b : vec, (fun (_ _ : vec) (_ : R) => tt) a b 0 = tt) /\ (forall l, exists l', (fun (g : line) (_ : unit) => g) (Ring l) tt = Ring l' \/ (fun (g : line) (_ : unit) => g) (Ring l) tt = Line l') /\ (forall l, exists l', (fun (g : line) (_ : unit) => g) (Line l) tt = Line l') /\
  forall ll, In ll ex_road -> rl_left ll <> [] /\ rl_right ll <> [].
Proof. split; [reflexivity|]. split; [intro l; exists l; left; reflexivity|]. split; [intro l; exists l; reflexivity|]. intros ll [<-|[]]. split; discriminate. Qed.
