(** Vocabulary of the statements on drawings. *)
From Coq Require Import String Reals List Bool.
From Verif Require Import Base R2 GeoModel BodySpec DrawModel.
Import ListNotations.
Open Scope R_scope.

(** A ring given in the frame of a part, at [n] and turned by [a] in the frame of a body
    with the pose (p, psi), in the world. *)
Definition part_in_world (p : vec) (psi : R) (n : vec) (a : R) (ring : list vec) : list vec := map (in_world (in_world p psi n) (psi + a)) ring.
(** The nozzle from its base at (0, 0) along the x axis, and the flame at its end. *)
Definition nozzle_ring (half_width length : R) : list vec := [(0, - half_width); (0, half_width); (length, half_width); (length, - half_width); (0, - half_width)].
Definition flame_ring (half_width start length : R) : list vec := [(start, - half_width); (start + length, 0); (start, half_width); (start, - half_width)].

(** The smallest box around the points. *)
Definition bounding_box (l : list vec) (x0 x1 y0 y1 : R) : Prop :=
  (forall v, In v l -> in_box x0 x1 y0 y1 v) /\ (exists v, In v l /\ fst v = x0) /\ (exists v, In v l /\ fst v = x1) /\ (exists v, In v l /\ snd v = y0) /\ (exists v, In v l /\ snd v = y1).

(** The sides of a ring, a point on a side, two rings that touch: a vertex of the first is on
    a side of the second. *)
Definition sides (r : list vec) : list (vec * vec) := combine r (tl r).
Definition on_side (v : vec) (s : vec * vec) : Prop := exists t, 0 <= t <= 1 /\ v = vadd (vscale (1 - t) (fst s)) (vscale t (snd s)).
Definition touching (r1 r2 : list vec) : Prop := exists v s, In v r1 /\ In s (sides r2) /\ on_side v s.
(** A function that is right about the exterior of the union of two polygons that touch, as
    far as its convex hull goes: a half-plane contains it exactly if it contains both
    polygons. *)
Definition right_union (union : list (list vec) -> list vec) : Prop :=
  forall r1 r2, touching r1 r2 -> forall a b c, (forall v, In v (union [r1; r2]) -> a * fst v + b * snd v <= c) <-> (forall v, In v (r1 ++ r2) -> a * fst v + b * snd v <= c).

(** The vector from the middle of the base of a nozzle to the middle of its outlet, and the
    middle of its base. *)
Definition mid (a b : vec) : vec := vscale (1 / 2) (vadd a b).
Definition nozzle_base (ring : list vec) : vec := mid (nth 0 ring (0, 0)) (nth 1 ring (0, 0)).
Definition nozzle_outlet (ring : list vec) : vec := mid (nth 2 ring (0, 0)) (nth 3 ring (0, 0)).
Definition exhaust (ring : list vec) : vec := vsub (nozzle_outlet ring) (nozzle_base ring).
(** The vector from the middle of the base of a flame to its tip. *)
Definition flame_vector (ring : list vec) : vec := vsub (nth 1 ring (0, 0)) (mid (nth 0 ring (0, 0)) (nth 2 ring (0, 0))).

(** The colour of a pixel: of the patches around it the one with the greatest zorder (1 if
    none is given), the last one among equals.  [None]: no patch, [Some None]: the colour of
    the background. *)
Section Paint.
Variable inside : list vec -> vec -> bool.
Definition z_of (s : option style) : R := match s with Some (mkStyle _ (Some z)) => z | _ => 1 end.
Definition over (p : vec) (best : option (R * option string)) (d : drawing) : option (R * option string) :=
  match d with
  | DPatch ring s =>
      if inside ring p then
        match best with
        | Some (z, _) => if Rlt_dec (z_of s) z then best else Some (z_of s, option_map st_color s)
        | None => Some (z_of s, option_map st_color s)
        end
      else best
  | _ => best
  end.
Definition paint (ds : list drawing) (p : vec) : option (option string) := option_map snd (fold_left (over p) ds None).
End Paint.

(** Trajectories that can be drawn: there is one, each has states, all with vx. *)
Definition drawable (e : extra) : Prop :=
  exists l, e = Trajectories l /\ l <> [] /\ forall t, In t (map fst l) -> t <> [] /\ forall s, In s t -> snd s <> None.
(** The drawing of these. *)
Definition drawn (e : extra) : traj_artists :=
  match e with Trajectories l => mkTA (map (map fst) (map fst l)) (Many (map snd l)) (concat (map (map fst) (map fst l))) | _ => mkTA [] (Many []) [] end.
(** The last drawable one. *)
Inductive last_drawable : list extra -> extra -> Prop :=
| ld_last es e : drawable e -> last_drawable (es ++ [e]) e
| ld_skip es e e' : ~ drawable e' -> last_drawable es e -> last_drawable (es ++ [e']) e.

(** The plots of a log of a player: one below the other, one for each field of the states,
    then one for each field of the commands, each with a single curve with the name of the
    field through its values at their times. *)
Section LogPlots.
Variables T V : Type.
Definition curve_of (log : record_log T V) (field : string) (c : curve T V) : Prop :=
  cu_label _ _ c = field /\ Forall2 (fun e tv => fst tv = fst e /\ aget String.eqb (snd e) field = Some (snd tv)) log (cu_points _ _ c).
(** All entries have the same fields. *)
Definition has_fields (log : record_log T V) (fields : list string) : Prop := log <> [] /\ forall e, In e log -> map fst (snd e) = fields.
Definition plots_of (states commands : record_log T V) (sf cf : list string) (new : list (axes T V)) : Prop :=
  length new = (length sf + length cf)%nat /\
  forall k a, nth_error new k = Some a -> ax_rows _ _ a = (length sf + length cf)%nat /\ ax_index _ _ a = S k /\
    exists c, ax_curves _ _ a = [c] /\
      ((k < length sf)%nat -> exists field, nth_error sf k = Some field /\ curve_of states field c /\ cu_step _ _ c = false) /\
      ((length sf <= k)%nat -> exists field, nth_error cf (k - length sf) = Some field /\ curve_of commands field c /\ cu_step _ _ c = true).
End LogPlots.
