(* Generated from tools/Swap.src by tools/gen_props.py. *)
(** Two players collide: which of them is named first, and what the collision looks like in a mirror. *)
From Coq Require Import String Reals List Bool Arith Permutation Lra Lia.
From Verif Require Import Base R2 GeoModel CollModel PlaceMain SwapSpec SwapProofs SwapMirror.
Import ListNotations.
Open Scope R_scope.
From Verif Require Import SwapMain.

(** ** C140  Which of two colliding players is named first *)

(** Two players whose shapes cross at a line between their centres leave the collision in the same state, and with the same report, whichever of them is named first; only the order of the players in the report and the sign of the normal change.  If an exception is raised it is the same one, and the models are left in the same state. *)
Theorem C140_swapped : forall Sh (sh : shapely Sh) M Loc (md : model_ops M Loc) i j ms sc time ma mb,
  i <> j -> even_handed sh -> aget Nat.eqb ms i = Some ma -> aget Nat.eqb ms j = Some mb -> face_to_face sh (md_footprint md ma) (md_footprint md mb) ->
  resolve_collision sh md j i ms sc time = (fst (resolve_collision sh md i j ms sc time), swapped_outcome (snd (resolve_collision sh md i j ms sc time))).
Proof. exact C140_swapped_pf. Qed.
Print Assumptions C140_swapped.

(** Non-vacuity: a box drives into the wide one; the hypotheses hold and the collision is reported. *)
Example C140_ex : even_handed boxes /\ face_to_face boxes Wide Nose /\ exists r, snd (resolve_collision boxes crate 1 2 [(1%nat, (Wide, (0, 0))); (2%nat, (Nose, (0, -1)))] None 0) = Ok (Some r).
Proof.
  split; [exact boxes_even|]. split.
  - split; [reflexivity|]. split; [reflexivity|]. intros p q. rewrite nose_crossings. intro B. injection B as <- <-. unfold side. cbn. lra.
  - apply (crates_meet Wide Nose (0, 0) (0, -1) (0, 1) (0, 10)); [|unfold vdot, vsub; cbn; lra].
    rewrite geometry_eq by reflexivity. rewrite nose_crossings. cbn [boxes touches intersection box_overlap ring4 centroid box_middle]. rewrite line_normal, line_middle. cbn [snd]. destruct (Rlt_dec 0 10); [reflexivity|lra].
Qed.

(** Both conditions are needed.  If a player is inside another one, the collision is resolved when the outer one is named first and fails with CollisionException when the inner one is. *)
Theorem C140_inside_refuted : exists ms r, even_handed boxes /\ contains boxes Wide Inner = true /\
  snd (resolve_collision boxes crate 1 2 ms None 0) = Ok (Some r) /\ resolve_collision boxes crate 2 1 ms None 0 = (ms, Err CollisionException).
Proof. exact C140_inside_refuted_pf. Qed.
Print Assumptions C140_inside_refuted.

(** If a player reaches more than half into another one, so that both centres are on the same side of the line through the crossing points, then the normal is the same for both orders: the player that drives out again is left alone if it is named second and collides if it is named first. *)
Theorem C140_same_side_refuted : exists (big small : box * vec) r, even_handed boxes /\ fst big = Wide /\ fst small = Deep /\ contains boxes Wide Deep = false /\ contains boxes Deep Wide = false /\ snd big = (0, 0) /\ snd small = (0, 1) /\
  snd (resolve_collision boxes crate 1 2 [(1%nat, big); (2%nat, small)] None 0) = Ok None /\
  snd (resolve_collision boxes crate 1 2 [(1%nat, small); (2%nat, big)] None 0) = Ok (Some r).
Proof. exact C140_same_side_refuted_pf. Qed.
Print Assumptions C140_same_side_refuted.

(** ** C141  Left and right are alike in collisions *)

(** In a mirror, two players collide as they would there: the velocities given to the models are mirrored, the report is that of the mirrored collision, with the same faults and energies, or the same exception is raised.  The centre of the first player must not be on the line through the crossing points. *)
Theorem C141_collision : forall Sh (sh : shapely Sh) H M Loc (md : model_ops M Loc) Rm so i j ms ns sc sc' time,
  shapely_mirrored sh H -> models_mirrored H md Rm so -> models_in_mirror Rm ms ns -> map_mirrored sc sc' ->
  (forall ma mb, aget Nat.eqb ms i = Some ma -> aget Nat.eqb ms j = Some mb -> off_line sh (md_footprint md ma) (md_footprint md mb)) ->
  models_in_mirror Rm (fst (resolve_collision sh md i j ms sc time)) (fst (resolve_collision sh md i j ns sc' time)) /\
  outcome_mirrored H so (snd (resolve_collision sh md i j ms sc time)) (snd (resolve_collision sh md i j ns sc' time)).
Proof. exact C141_collision_pf. Qed.
Print Assumptions C141_collision.

(** The same for a collision with a static obstacle that does not turn. *)
Theorem C141_obstacle : forall Sh (sh : shapely Sh) H M Loc (md : model_ops M Loc) everywhere Rm so env i m n s s' g time,
  shapely_mirrored sh H -> models_mirrored H md Rm so -> Rm m n -> H s s' -> g_Iz g = CollModel.Inf -> so everywhere = everywhere -> off_line sh (md_footprint md m) s ->
  Rm (fst (resolve_collision_with_environment sh md everywhere env i m s g time)) (fst (resolve_collision_with_environment sh md everywhere env i n s' g time)) /\
  outcome_mirrored H so (snd (resolve_collision_with_environment sh md everywhere env i m s g time)) (snd (resolve_collision_with_environment sh md everywhere env i n s' g time)).
Proof. exact C141_obstacle_pf. Qed.
Print Assumptions C141_obstacle.

(** The moment of inertia of the obstacle has to be infinite: otherwise the vector (1, 1) taken for the vector from the obstacle to the point of impact matters, and the mirrored impact gives another speed. *)
Theorem C141_obstacle_refuted : exists (m n : mat * vec) s s' g, shapely_mirrored dots dot_flipped /\ models_mirrored dot_flipped puck puck_flipped (fun l => l) /\ puck_flipped m n /\ dot_flipped s s' /\ CollModel.g_m g = CollModel.Inf /\ off_line dots (md_footprint puck m) s /\
  ~ puck_flipped (fst (resolve_collision_with_environment dots puck tt 0 1 m s g 0)) (fst (resolve_collision_with_environment dots puck tt 0 1 n s' g 0)).
Proof. exact C141_obstacle_refuted_pf. Qed.
Print Assumptions C141_obstacle_refuted.

(** Non-vacuity: two models meet the hypotheses, and their collision is reported. *)
Example C141_ex : exists ms ns, shapely_mirrored hinges dot_flipped /\ models_mirrored dot_flipped puck puck_flipped (fun l => l) /\ models_in_mirror puck_flipped ms ns /\
  (forall ma mb, aget Nat.eqb ms 1%nat = Some ma -> aget Nat.eqb ms 2%nat = Some mb -> off_line hinges (md_footprint puck ma) (md_footprint puck mb)) /\
  exists r, snd (resolve_collision hinges puck 1 2 ms None 0) = Ok (Some r).
Proof.
  pose (z1 := SE2_from_translation_angle (0, 1) 0). pose (z2 := SE2_from_translation_angle (0, -1) 0).
  exists [(1%nat, (z1, (0, -1))); (2%nat, (z2, (0, 0)))], [(1%nat, (flip_pose z1, flip (0, -1))); (2%nat, (flip_pose z2, flip (0, 0)))].
  split; [exact hinges_mirrored|]. split; [exact pucks_mirrored|]. split; [repeat constructor|]. split.
  - intros ma mb A B. injection A as <-. injection B as <-. intros p q. unfold crossings. cbn [hinges intersection vertices filter contains_pt negb orb]. intro C. injection C as <- <-. unfold side. cbn. lra.
  - apply (pucks_meet z1 z2 (0, -1) (0, 0) (0, -1)); [reflexivity| |unfold vdot, vsub; cbn; lra]. cbn. destruct (Rlt_dec 0 1); [reflexivity|lra].
Qed.

(** The condition on the centre is needed: if it is on the line through the crossing points, the direction of the normal depends on the order in which the points are found, and players that collide are left alone in the mirror. *)
Theorem C141_on_line_refuted : exists ms ns r, shapely_mirrored hinges dot_flipped /\ models_mirrored dot_flipped puck puck_flipped (fun l => l) /\ models_in_mirror puck_flipped ms ns /\
  snd (resolve_collision hinges puck 1 2 ms None 0) = Ok (Some r) /\ snd (resolve_collision hinges puck 1 2 ns None 0) = Ok None.
Proof. exact C141_on_line_refuted_pf. Qed.
Print Assumptions C141_on_line_refuted.
