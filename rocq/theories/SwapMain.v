(* Generated from tools/Swap.src by tools/gen_props.py. *)
(** Two players collide: which of them is named first, and what the collision looks like in a mirror. *)
From Coq Require Import String Reals List Bool Arith Permutation Lra Lia.
From Verif Require Import Base R2 GeoModel CollModel PlaceMain SwapSpec SwapProofs SwapMirror.
Import ListNotations.
Open Scope R_scope.

(** Two players whose shapes cross at a line between their centres leave the collision in the same state, and with the same report, whichever of them is named first; only the order of the players in the report and the sign of the normal change.  If an exception is raised it is the same one, and the models are left in the same state. *)
Lemma C140_swapped_pf : forall Sh (sh : shapely Sh) M Loc (md : model_ops M Loc) i j ms sc time ma mb,
  i <> j -> even_handed sh -> aget Nat.eqb ms i = Some ma -> aget Nat.eqb ms j = Some mb -> face_to_face sh (md_footprint md ma) (md_footprint md mb) ->
  resolve_collision sh md j i ms sc time = (fst (resolve_collision sh md i j ms sc time), swapped_outcome (snd (resolve_collision sh md i j ms sc time))).
Proof. intros Sh sh M Loc md i j ms sc time ma mb. apply resolve_swap. Qed.

(** A wide box of side 20, one that reaches into it by a quarter, one by more than a half, and one inside it. *)
Inductive box := Wide | Nose | Deep | Inner.

Definition box_middle (b : box) : vec := match b with Wide => (0, 0) | Nose => (0, 11) | Deep => (0, 19 / 2) | Inner => (1, 0) end.

Definition ring4 (x0 y0 x1 y1 : R) : isect := IPolygon [(x0, y0); (x1, y0); (x1, y1); (x0, y1); (x0, y0)].

Definition box_overlap (a b : box) : isect :=
  match a, b with Wide, Nose | Nose, Wide => ring4 (-1) 9 1 10 | Wide, Deep | Deep, Wide => ring4 (-1) 8 1 10 | Wide, Inner | Inner, Wide => ring4 0 (-1) 2 1 | _, _ => IOther end.

Definition in_box (b : box) (p : vec) : bool := match b with Wide => if Rlt_dec (Rabs (fst p)) 10 then if Rlt_dec (Rabs (snd p)) 10 then true else false else false | _ => false end.

Definition boxes : shapely box :=
  mkShp (fun _ _ => false) (fun a b => match a, b with Wide, Inner => true | _, _ => false end) (fun _ _ => true) box_middle box_overlap in_box (fun _ => true) (fun b => Ok b).

Lemma boxes_even : even_handed boxes.
Proof. constructor; [reflexivity|]. intros [] []; cbn; try exact I; reflexivity. Qed.

(** Small models: a box and a velocity, of mass 1, that do not turn. *)
Definition crate : model_ops (Sh := box) (box * vec) unit :=
  mkMO (fun m => fst m) (fun m => [(tt, fst m)]) (fun m => SE2_from_translation_angle (box_middle (fst m)) 0) (fun m => (snd m, 0)) (fun _ => CollModel.mkG (CollModel.Fin 1) CollModel.Inf 1) (fun m => m) (fun m o => match o with Some (v, _) => (fst m, v) | None => m end).

Lemma in_wide_in x y : Rabs x < 10 -> Rabs y < 10 -> in_box Wide (x, y) = true.
Proof. intros H1 H2. unfold in_box. cbn [fst snd]. destruct (Rlt_dec (Rabs x) 10); [|contradiction]. destruct (Rlt_dec (Rabs y) 10); [reflexivity|contradiction]. Qed.

Lemma in_wide_edge x : in_box Wide (x, 10) = false.
Proof. unfold in_box. cbn [fst snd]. destruct (Rlt_dec (Rabs x) 10); [|reflexivity]. destruct (Rlt_dec (Rabs 10) 10) as [B|_]; [|reflexivity]. rewrite Rabs_right in B; lra. Qed.

Lemma nose_crossings : crossings boxes Wide Nose = [(1, 10); (-1, 10)].
Proof.
  unfold crossings. cbn [boxes intersection contains_pt box_overlap ring4 vertices removelast filter]. rewrite !in_wide_edge, !in_wide_in by (unfold Rabs; destruct (Rcase_abs _); lra). reflexivity.
Qed.

Lemma deep_crossings : crossings boxes Wide Deep = [(1, 10); (-1, 10)] /\ crossings boxes Deep Wide = [(1, 10); (-1, 10)].
Proof.
  unfold crossings. cbn [boxes intersection contains_pt box_overlap ring4 vertices removelast filter]. rewrite !in_wide_edge, !in_wide_in by (unfold Rabs; destruct (Rcase_abs _); lra). split; reflexivity.
Qed.

Lemma inner_crossings : crossings boxes Inner Wide = [].
Proof.
  unfold crossings. cbn [boxes intersection contains_pt box_overlap ring4 vertices removelast filter]. rewrite !in_wide_in by (unfold Rabs; destruct (Rcase_abs _); lra). reflexivity.
Qed.

Lemma line_normal c : nrm (1, 10) (-1, 10) c = if Rlt_dec (snd c) 10 then Some (0, 1) else Some (0, -1).
Proof.
  unfold nrm. replace (rot90 (vsub (-1, 10) (1, 10))) with ((0, -2) : vec) by (unfold rot90, vsub; cbn; apply f_equal2; ring).
  assert (L : vnorm (0, -2) = 2) by (unfold vnorm, vdot; cbn [fst snd]; replace (0 * 0 + -2 * -2) with (2 * 2) by ring; apply sqrt_square; lra).
  unfold normalize. rewrite L. destruct (Req_EM_T 2 0) as [B|_]; [lra|]. replace (vscale (/ 2) (0, -2)) with ((0, -1) : vec) by (unfold vscale; cbn; apply f_equal2; field).
  replace (vdot (vsub (midpoint (1, 10) (-1, 10)) c) (0, -1)) with (snd c - 10) by (unfold vdot, vsub, midpoint, vscale, vadd; cbn; field).
  destruct (Rlt_dec (snd c - 10) 0), (Rlt_dec (snd c) 10); try (exfalso; lra); [|reflexivity]. f_equal. unfold vneg. cbn. apply f_equal2; ring.
Qed.

Lemma line_middle : midpoint (1, 10) (-1, 10) = (0, 10).
Proof. unfold midpoint, vscale, vadd. cbn. apply f_equal2; field. Qed.

Lemma no_turn v r : velocity_of_P_given_A v 0 r = v.
Proof. destruct v. unfold velocity_of_P_given_A, vadd, vscale. cbn. apply f_equal2; ring. Qed.

Lemma first_of {V} (x y : V) : aget Nat.eqb [(1%nat, x); (2%nat, y)] 1%nat = Some x.
Proof. reflexivity. Qed.

Lemma second_of {V} (x y : V) : aget Nat.eqb [(1%nat, x); (2%nat, y)] 2%nat = Some y.
Proof. reflexivity. Qed.

Lemma crates_meet a b va vb n p : compute_impact_geometry boxes a b = Ok (Some n, p) -> 0 <= vdot (vsub va vb) n ->
  exists r, snd (resolve_collision boxes crate 1 2 [(1%nat, (a, va)); (2%nat, (b, vb))] None 0) = Ok (Some r).
Proof.
  intros G D. unfold resolve_collision, agetE. rewrite ?first_of, ?second_of. cbn [crate md_footprint md_velocity fst snd]. rewrite G, !no_turn.
  destruct (Rlt_dec (vdot (vsub va vb) n) 0) as [B|_]; [lra|]. eexists. cbn -[vdot vsub compute_impulse_response velocity_after_collision rot_velocity_after_collision]. reflexivity.
Qed.

(** Both conditions are needed.  If a player is inside another one, the collision is resolved when the outer one is named first and fails with CollisionException when the inner one is. *)
Lemma C140_inside_refuted_pf : exists ms r, even_handed boxes /\ contains boxes Wide Inner = true /\
  snd (resolve_collision boxes crate 1 2 ms None 0) = Ok (Some r) /\ resolve_collision boxes crate 2 1 ms None 0 = (ms, Err CollisionException).
Proof.
  assert (G : compute_impact_geometry boxes Wide Inner = Ok (Some (1, 0), (1, 0))).
  { unfold compute_impact_geometry. cbn [boxes touches contains centroid box_middle]. replace (vsub (1, 0) (0, 0)) with ((1, 0) : vec) by (unfold vsub; cbn; apply f_equal2; ring).
    assert (L : vnorm (1, 0) = 1) by (unfold vnorm, vdot; cbn [fst snd]; replace (1 * 1 + 0 * 0) with (1 * 1) by ring; apply sqrt_square; lra).
    unfold normalize. rewrite L. destruct (Req_EM_T 1 0) as [B|_]; [lra|]. replace (vscale (/ 1) (1, 0)) with ((1, 0) : vec) by (unfold vscale; cbn; apply f_equal2; field).
    destruct (Rlt_dec _ 0) as [B|_]; [unfold vdot in B; cbn in B; lra|reflexivity]. }
  destruct (crates_meet Wide Inner (1, 0) (0, 0) _ _ G) as (r & E); [unfold vdot, vsub; cbn; lra|].
  exists [(1%nat, (Wide, (1, 0))); (2%nat, (Inner, (0, 0)))], r. split; [exact boxes_even|]. split; [reflexivity|]. split; [exact E|].
  unfold resolve_collision, agetE. rewrite ?first_of, ?second_of. cbn [crate md_footprint fst]. rewrite geometry_eq by reflexivity. rewrite inner_crossings. reflexivity.
Qed.

(** If a player reaches more than half into another one, so that both centres are on the same side of the line through the crossing points, then the normal is the same for both orders: the player that drives out again is left alone if it is named second and collides if it is named first. *)
Lemma C140_same_side_refuted_pf : exists (big small : box * vec) r, even_handed boxes /\ fst big = Wide /\ fst small = Deep /\ contains boxes Wide Deep = false /\ contains boxes Deep Wide = false /\ snd big = (0, 0) /\ snd small = (0, 1) /\
  snd (resolve_collision boxes crate 1 2 [(1%nat, big); (2%nat, small)] None 0) = Ok None /\
  snd (resolve_collision boxes crate 1 2 [(1%nat, small); (2%nat, big)] None 0) = Ok (Some r).
Proof.
  assert (G : compute_impact_geometry boxes Wide Deep = Ok (Some (0, 1), (0, 10)) /\ compute_impact_geometry boxes Deep Wide = Ok (Some (0, 1), (0, 10))).
  { split; rewrite geometry_eq by reflexivity; rewrite ?(proj1 deep_crossings), ?(proj2 deep_crossings); cbn [boxes touches intersection box_overlap ring4 centroid box_middle]; rewrite line_normal, line_middle; cbn [snd]; [destruct (Rlt_dec 0 10); [reflexivity|lra]|destruct (Rlt_dec (19 / 2) 10); [reflexivity|lra]]. }
  destruct G as [G1 G2]. destruct (crates_meet Deep Wide (0, 1) (0, 0) _ _ G2) as (r & E); [unfold vdot, vsub; cbn; lra|].
  exists (Wide, (0, 0)), (Deep, (0, 1)), r. split; [exact boxes_even|]. do 6 (split; [reflexivity|]). split; [|exact E].
  unfold resolve_collision, agetE. rewrite ?first_of, ?second_of. cbn [crate md_footprint fst md_velocity snd]. rewrite G1, !no_turn. destruct (Rlt_dec _ 0) as [_|B]; [reflexivity|exfalso; apply B; unfold vdot, vsub; cbn; lra].
Qed.

(** In a mirror, two players collide as they would there: the velocities given to the models are mirrored, the report is that of the mirrored collision, with the same faults and energies, or the same exception is raised.  The centre of the first player must not be on the line through the crossing points. *)
Lemma C141_collision_pf : forall Sh (sh : shapely Sh) H M Loc (md : model_ops M Loc) Rm so i j ms ns sc sc' time,
  shapely_mirrored sh H -> models_mirrored H md Rm so -> models_in_mirror Rm ms ns -> map_mirrored sc sc' ->
  (forall ma mb, aget Nat.eqb ms i = Some ma -> aget Nat.eqb ms j = Some mb -> off_line sh (md_footprint md ma) (md_footprint md mb)) ->
  models_in_mirror Rm (fst (resolve_collision sh md i j ms sc time)) (fst (resolve_collision sh md i j ns sc' time)) /\
  outcome_mirrored H so (snd (resolve_collision sh md i j ms sc time)) (snd (resolve_collision sh md i j ns sc' time)).
Proof.
  intros Sh sh H M Loc md Rm so i j ms ns sc sc' time E Em Hm Hs Ho. apply resolve_mirror; auto. intros ma mb. unfold agetE. destruct (aget Nat.eqb ms i), (aget Nat.eqb ms j); try discriminate. intros E1 E2. injection E1 as <-. injection E2 as <-. auto.
Qed.

(** The same for a collision with a static obstacle that does not turn. *)
Lemma C141_obstacle_pf : forall Sh (sh : shapely Sh) H M Loc (md : model_ops M Loc) everywhere Rm so env i m n s s' g time,
  shapely_mirrored sh H -> models_mirrored H md Rm so -> Rm m n -> H s s' -> g_Iz g = CollModel.Inf -> so everywhere = everywhere -> off_line sh (md_footprint md m) s ->
  Rm (fst (resolve_collision_with_environment sh md everywhere env i m s g time)) (fst (resolve_collision_with_environment sh md everywhere env i n s' g time)) /\
  outcome_mirrored H so (snd (resolve_collision_with_environment sh md everywhere env i m s g time)) (snd (resolve_collision_with_environment sh md everywhere env i n s' g time)).
Proof. intros Sh sh H M Loc md everywhere Rm so env i m n s s' g time E Em. apply resolve_env_mirror; assumption. Qed.

(** Points, and the models of points of C138, in the mirror. *)
Definition dot_flipped (x y : vec) : Prop := y = flip x.

Definition puck_flipped (m n : mat * vec) : Prop := n = (flip_pose (fst m), flip (snd m)).

Lemma pucks_mirrored : models_mirrored dot_flipped puck puck_flipped (fun l => l).
Proof.
  constructor; cbn.
  - intros m n ->. unfold dot_flipped. cbn. apply flip_translation.
  - intros m n ->. eexists. split; [reflexivity|]. constructor; [|constructor]. split; [reflexivity|]. unfold dot_flipped. cbn. apply flip_translation.
  - intros m n ->. reflexivity.
  - intros m n ->. unfold flip_velocity. cbn. rewrite Ropp_0. reflexivity.
  - intros m n _. reflexivity.
  - intros m n ->. reflexivity.
  - intros m n [[v w]|] ->; reflexivity.
Qed.

Lemma dots_mirrored : shapely_mirrored dots dot_flipped.
Proof. constructor; cbn; try reflexivity; unfold dot_flipped; auto. Qed.

(** The moment of inertia of the obstacle has to be infinite: otherwise the vector (1, 1) taken for the vector from the obstacle to the point of impact matters, and the mirrored impact gives another speed. *)
Lemma C141_obstacle_refuted_pf : exists (m n : mat * vec) s s' g, shapely_mirrored dots dot_flipped /\ models_mirrored dot_flipped puck puck_flipped (fun l => l) /\ puck_flipped m n /\ dot_flipped s s' /\ CollModel.g_m g = CollModel.Inf /\ off_line dots (md_footprint puck m) s /\
  ~ puck_flipped (fst (resolve_collision_with_environment dots puck tt 0 1 m s g 0)) (fst (resolve_collision_with_environment dots puck tt 0 1 n s' g 0)).
Proof.
  pose (u := (3 / 5, 4 / 5)). pose (w := (3 / 5, - (4 / 5))). pose (P := SE2_from_translation_angle (0, 0) 0). pose (g := CollModel.mkG CollModel.Inf (CollModel.Fin 1) 1).
  exists (P, vscale 5 u), (flip_pose P, flip (vscale 5 u)), (vscale 5 u), (flip (vscale 5 u)), g.
  split; [exact dots_mirrored|]. split; [exact pucks_mirrored|]. split; [reflexivity|]. split; [reflexivity|]. split; [reflexivity|]. split; [intros p q B; discriminate B|].
  assert (T : flip (vscale 5 u) = vscale 5 w) by (unfold flip, vscale, u, w; cbn [fst snd]; apply f_equal2; field). rewrite T.
  destruct (puck_hits P u (CollModel.Fin 1)) as (r1 & E1); [reflexivity|unfold vdot, u; cbn; field|].
  destruct (puck_hits (flip_pose P) w (CollModel.Fin 1)) as (r2 & E2); [rewrite flip_translation; unfold flip; cbn; apply f_equal2; ring|unfold vdot, w; cbn; field|].
  unfold g. rewrite E1, E2. cbn [fst]. unfold puck_flipped. cbn [fst snd]. intro B. apply (f_equal (fun z => fst (snd z))) in B. cbn [fst snd] in B. revert B.
  unfold flip, vadd, vscale, vcross, over, u, w. cbn [fst snd]. intro B.
  assert (X : forall k, - (1 + 1) * 5 / (1 + 0 + (0 + k / 1)) = - 10 / (1 + k)) by (intro k; replace (1 + 0 + (0 + k / 1)) with (1 + k) by field; replace (- (1 + 1) * 5) with (- 10) by ring; reflexivity).
  rewrite !X in B.
  replace (- 10 / (1 + (1 * (4 / 5) - 1 * (3 / 5)) * (1 * (4 / 5) - 1 * (3 / 5)))) with (- (125 / 13)) in B by field.
  replace (- 10 / (1 + (1 * - (4 / 5) - 1 * (3 / 5)) * (1 * - (4 / 5) - 1 * (3 / 5)))) with (- (125 / 37)) in B by field. lra.
Qed.

(** Points whose outlines are taken to cross at (-1, 0) and (1, 0). *)
Definition hinges : shapely vec := mkShp (fun _ _ => false) (fun _ _ => false) (fun _ _ => true) (fun x => x) (fun _ _ => ILine [(-1, 0); (1, 0)]) (fun _ _ => false) (fun _ => true) (fun x => Ok x).

Lemma hinges_mirrored : shapely_mirrored hinges dot_flipped.
Proof.
  constructor; cbn; try reflexivity; unfold dot_flipped; auto. intros _ _ _ _ _ _. unfold flip. cbn. rewrite Ropp_0. reflexivity.
Qed.

Lemma hinge_normal c : fst c = 0 -> nrm (-1, 0) (1, 0) c = if Rlt_dec 0 (snd c) then Some (0, -1) else Some (0, 1).
Proof.
  intro C. unfold nrm. replace (rot90 (vsub (1, 0) (-1, 0))) with ((0, 2) : vec) by (unfold rot90, vsub; cbn; apply f_equal2; ring).
  assert (L : vnorm (0, 2) = 2) by (unfold vnorm, vdot; cbn [fst snd]; replace (0 * 0 + 2 * 2) with (2 * 2) by ring; apply sqrt_square; lra).
  unfold normalize. rewrite L. destruct (Req_EM_T 2 0) as [B|_]; [lra|]. replace (vscale (/ 2) (0, 2)) with ((0, 1) : vec) by (unfold vscale; cbn; apply f_equal2; field).
  replace (vdot (vsub (midpoint (-1, 0) (1, 0)) c) (0, 1)) with (- snd c) by (unfold vdot, vsub, midpoint, vscale, vadd; cbn; field).
  destruct (Rlt_dec (- snd c) 0), (Rlt_dec 0 (snd c)); try (exfalso; lra); [|reflexivity]. f_equal. unfold vneg. cbn. apply f_equal2; ring.
Qed.

Lemma hinge_geometry a b : fst a = 0 -> compute_impact_geometry hinges a b = Ok (if Rlt_dec 0 (snd a) then Some (0, -1) else Some (0, 1), (0, 0)).
Proof.
  intro A. rewrite geometry_eq by reflexivity. unfold crossings. cbn [hinges touches intersection vertices filter contains_pt negb orb centroid]. rewrite hinge_normal by exact A. f_equal. f_equal. unfold midpoint, vscale, vadd. cbn. apply f_equal2; field.
Qed.

Lemma pucks_apart z1 z2 v1 v2 : translation_from_SE2 z1 = (0, 0) -> vdot (vsub v1 v2) (0, 1) < 0 -> snd (resolve_collision hinges puck 1 2 [(1%nat, (z1, v1)); (2%nat, (z2, v2))] None 0) = Ok None.
Proof.
  intros Z D. unfold resolve_collision, agetE. rewrite ?first_of, ?second_of. cbn [puck md_footprint md_velocity fst snd]. rewrite Z, hinge_geometry by reflexivity. cbn [snd]. destruct (Rlt_dec 0 0) as [B|_]; [lra|]. rewrite !no_turn. destruct (Rlt_dec _ 0) as [_|B]; [reflexivity|contradiction].
Qed.

Lemma pucks_meet z1 z2 v1 v2 n : fst (translation_from_SE2 z1) = 0 -> (if Rlt_dec 0 (snd (translation_from_SE2 z1)) then Some (0, -1) else Some (0, 1)) = Some n -> 0 <= vdot (vsub v1 v2) n ->
  exists r, snd (resolve_collision hinges puck 1 2 [(1%nat, (z1, v1)); (2%nat, (z2, v2))] None 0) = Ok (Some r).
Proof.
  intros Z N D. unfold resolve_collision, agetE. rewrite ?first_of, ?second_of. cbn [puck md_footprint md_velocity fst snd]. rewrite hinge_geometry by exact Z. rewrite N, !no_turn. destruct (Rlt_dec _ 0) as [B|_]; [lra|].
  eexists. cbn -[vdot vsub compute_impulse_response velocity_after_collision rot_velocity_after_collision SE2_from_translation_angle]. reflexivity.
Qed.

(** The condition on the centre is needed: if it is on the line through the crossing points, the direction of the normal depends on the order in which the points are found, and players that collide are left alone in the mirror. *)
Lemma C141_on_line_refuted_pf : exists ms ns r, shapely_mirrored hinges dot_flipped /\ models_mirrored dot_flipped puck puck_flipped (fun l => l) /\ models_in_mirror puck_flipped ms ns /\
  snd (resolve_collision hinges puck 1 2 ms None 0) = Ok (Some r) /\ snd (resolve_collision hinges puck 1 2 ns None 0) = Ok None.
Proof.
  pose (z1 := SE2_from_translation_angle (0, 0) 0). pose (z2 := SE2_from_translation_angle (0, 1) 0).
  destruct (pucks_meet z1 z2 (0, 1) (0, 0) (0, 1)) as (r & E); [reflexivity|cbn; destruct (Rlt_dec 0 0); [lra|reflexivity]|unfold vdot, vsub; cbn; lra|].
  exists [(1%nat, (z1, (0, 1))); (2%nat, (z2, (0, 0)))], [(1%nat, (flip_pose z1, flip (0, 1))); (2%nat, (flip_pose z2, flip (0, 0)))], r.
  split; [exact hinges_mirrored|]. split; [exact pucks_mirrored|]. split; [repeat constructor|]. split; [exact E|].
  apply pucks_apart; [unfold z1; rewrite flip_translation; unfold flip; cbn; apply f_equal2; ring|]. unfold vdot, vsub, flip. cbn. lra.
Qed.
