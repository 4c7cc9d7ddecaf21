(** Two players collide: which of them is named first, and what the collision looks like in a mirror. *)
From Coq Require Import Reals List Bool Arith Permutation.
From Verif Require Import Base R2 GeoModel CollModel.
Import ListNotations.
Open Scope R_scope.

(** ** Which of the two is named first *)
Section Swap.
Context {Sh : Type} (sh : shapely Sh).

(** The same intersection, its vertices listed in any order. *)
Definition same_isect (i j : isect) : Prop :=
  match i, j with
  | IPolygon l, IPolygon k => Permutation (removelast l) (removelast k)
  | ILine l, ILine k => Permutation l k
  | IMulti (Some l), IMulti (Some k) => Permutation (removelast l) (removelast k)
  | IMulti None, IMulti None => True
  | IOther, IOther => True
  | _, _ => False
  end.
(** shapely treats its two arguments alike. *)
Record even_handed : Prop := mkEven {
  eh_touches : forall x y, touches sh x y = touches sh y x;
  eh_intersection : forall x y, same_isect (intersection sh x y) (intersection sh y x) }.

(** The points where the outlines cross: vertices of the intersection that are inside neither shape. *)
Definition vertices (i : isect) : list vec :=
  match i with IPolygon l => removelast l | ILine l => l | IMulti (Some l) => removelast l | _ => [] end.
Definition crossings (x y : Sh) : list vec := filter (fun p => negb (contains_pt sh x p || contains_pt sh y p)) (vertices (intersection sh x y)).
(** On which side of the line from [p] to [q] a point is. *)
Definition side (p q c : vec) : R := (fst q - fst p) * (snd c - snd p) - (snd q - snd p) * (fst c - fst p).
(** Neither shape is inside the other, and the line through the two crossing points passes between the centres. *)
Definition face_to_face (x y : Sh) : Prop :=
  contains sh x y = false /\ contains sh y x = false /\
  forall p q, crossings x y = [p; q] -> side p q (centroid sh x) * side p q (centroid sh y) < 0.
End Swap.

(** The report with the players in the other order and the normal pointing the other way. *)
Definition swapped {Sh Loc} (r : report (Sh := Sh) Loc) : report (Sh := Sh) Loc :=
  mkRep (rev (rep_players r)) (rep_point r) (match rep_normal r with Some n => Some (- fst n, - snd n) | None => None end) (rep_time r).
Definition swapped_outcome {Sh Loc} (o : result (option (report (Sh := Sh) Loc))) : result (option (report (Sh := Sh) Loc)) :=
  match o with Ok (Some r) => Ok (Some (swapped r)) | Ok None => Ok None | Err e => Err e end.

(** ** In a mirror *)
(** Points and vectors mirrored at the x axis; turning is mirrored too. *)
Definition flip (v : vec) : vec := (fst v, - snd v).
Definition flip_velocity (v : vec * R) : vec * R := (flip (fst v), - snd v).
(** The mirrored pose: the mirrored place and the opposite heading. *)
Definition flip_pose (z : mat) : mat := mkM (m00 z) (- m01 z) (m02 z) (- m10 z) (m11 z) (- m12 z).
Definition flip_isect (i : isect) : isect :=
  match i with IPolygon l => IPolygon (map flip l) | ILine l => ILine (map flip l) | IMulti o => IMulti (option_map (map flip) o) | IOther => IOther end.

Section Mirror.
Context {Sh : Type} (sh : shapely Sh) (H : Sh -> Sh -> Prop).   (* [H x y]: [y] is the shape [x] in the mirror *)

(** What shapely answers is the same in the mirror. *)
Record shapely_mirrored : Prop := mkShM {
  sm_touches : forall x x' y y', H x x' -> H y y' -> touches sh x' y' = touches sh x y;
  sm_contains : forall x x' y y', H x x' -> H y y' -> contains sh x' y' = contains sh x y;
  sm_intersects : forall x x' y y', H x x' -> H y y' -> intersects sh x' y' = intersects sh x y;
  sm_centroid : forall x x', H x x' -> centroid sh x' = flip (centroid sh x);
  sm_intersection : forall x x' y y', H x x' -> H y y' -> same_isect (flip_isect (intersection sh x y)) (intersection sh x' y');
  sm_contains_pt : forall x x' p, H x x' -> contains_pt sh x' (flip p) = contains_pt sh x p;
  sm_is_polygon : forall x x', H x x' -> is_polygon sh x' = is_polygon sh x;
  sm_to_polygon : forall x x', H x x' -> match to_polygon sh x, to_polygon sh x' with Ok y, Ok y' => H y y' | Err e, Err e' => e' = e | _, _ => False end }.

(** The centre of [x] is not on the line through the crossing points. *)
Definition off_line (x y : Sh) : Prop := forall p q, crossings sh x y = [p; q] -> side p q (centroid sh x) <> 0.

(** The mirrored map: the lanes at the mirrored point judge mirrored poses the same. *)
Definition net_mirrored (n n' : network) : Prop := forall p z, map (fun l : lane => l (flip_pose z)) (n' (flip p)) = map (fun l : lane => l z) (n p).
Definition map_mirrored (n n' : option network) : Prop := match n, n' with Some x, Some y => net_mirrored x y | None, None => True | _, _ => False end.

Context {M Loc : Type} (md : model_ops (Sh := Sh) M Loc) (Rm : M -> M -> Prop) (side_of : Loc -> Loc).  (* left and right change places *)
Definition part_mirrored (x y : Loc * Sh) : Prop := fst y = side_of (fst x) /\ H (snd x) (snd y).
Record models_mirrored : Prop := mkMdM {
  mm_footprint : forall m n, Rm m n -> H (md_footprint md m) (md_footprint md n);
  mm_mesh : forall m n, Rm m n -> exists l, Permutation l (md_mesh md n) /\ Forall2 part_mirrored (md_mesh md m) l;
  mm_pose : forall m n, Rm m n -> md_pose md n = flip_pose (md_pose md m);
  mm_velocity : forall m n, Rm m n -> md_velocity md n = flip_velocity (md_velocity md m);
  mm_geometry : forall m n, Rm m n -> md_geometry md n = md_geometry md m;
  mm_collided : forall m n, Rm m n -> Rm (md_set_collided md m) (md_set_collided md n);
  mm_set_velocity : forall m n v, Rm m n -> Rm (md_set_velocity md m v) (md_set_velocity md n (option_map flip_velocity v)) }.

(** The report of the mirrored collision. *)
Definition player_mirrored (r s : player_report (Sh := Sh) Loc) : Prop :=
  (exists l, Permutation l (pr_locations s) /\ Forall2 part_mirrored (pr_locations r) l) /\ pr_at_fault s = pr_at_fault r /\ H (pr_footprint r) (pr_footprint s) /\
  pr_velocity s = flip_velocity (pr_velocity r) /\ pr_velocity_after s = option_map flip_velocity (pr_velocity_after r) /\ pr_energy_delta s = pr_energy_delta r.
Definition report_mirrored (r s : report (Sh := Sh) Loc) : Prop :=
  Forall2 (fun x y => fst y = fst x /\ match snd x, snd y with Some u, Some v => player_mirrored u v | None, None => True | _, _ => False end) (rep_players r) (rep_players s) /\
  rep_point s = option_map flip (rep_point r) /\ rep_normal s = option_map flip (rep_normal r) /\ rep_time s = rep_time r.
Definition outcome_mirrored (o p : result (option (report (Sh := Sh) Loc))) : Prop :=
  match o, p with Ok (Some r), Ok (Some s) => report_mirrored r s | Ok None, Ok None => True | Err e, Err e' => e' = e | _, _ => False end.
Definition models_in_mirror (ms ns : list (nat * M)) : Prop := Forall2 (fun x y => fst y = fst x /\ Rm (snd x) (snd y)) ms ns.
End Mirror.
