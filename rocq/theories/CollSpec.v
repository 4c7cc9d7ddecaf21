(** Vocabulary of the statements on collisions. *)
From Coq Require Import Reals List Bool Arith.
From Verif Require Import Base R2 GeoModel CollModel.
Import ListNotations.
Open Scope R_scope.

(** Rigid-body mechanics in the plane: velocity of the material point at [P] of a
    body with centre of mass at [c], velocity [v] and angular velocity [w]. *)
Definition contact (v : vec) (w : R) (c P : vec) : vec := (fst v - w * (snd P - snd c), snd v + w * (fst P - fst c)).
(** Linear momentum, angular momentum about [o] and kinetic energy. *)
Definition momentum (m : R) (v : vec) : vec := (m * fst v, m * snd v).
Definition ang_momentum (m iz : R) (c v : vec) (w : R) (o : vec) : R := m * vcross (vsub c o) v + iz * w.
Definition energy (m iz : R) (v : vec) (w : R) : R := 1 / 2 * m * vdot v v + 1 / 2 * iz * (w * w).

Section S.
Context {Sh M Loc : Type} (md : model_ops (Sh := Sh) M Loc).

(** Setting the collision flag changes nothing the collision code reads. *)
Definition flag_only : Prop := forall m,
  md_footprint md (md_set_collided md m) = md_footprint md m /\ md_mesh md (md_set_collided md m) = md_mesh md m /\
  md_pose md (md_set_collided md m) = md_pose md m /\ md_velocity md (md_set_collided md m) = md_velocity md m /\
  md_geometry md (md_set_collided md m) = md_geometry md m.

(** Position of the centre of mass. *)
Definition cog (m : M) : vec := translation_from_SE2 (md_pose md m).

(** A body of finite positive mass and inertia. *)
Definition solid (m : M) (mass iz e : R) : Prop := md_geometry md m = mkG (Fin mass) (Fin iz) e /\ 0 < mass /\ 0 < iz.

(** The report's velocities of a player before and after. *)
Definition before (r : report Loc) (p : nat) (v : vec) (w : R) : Prop :=
  exists pr : player_report (Sh := Sh) Loc, aget Nat.eqb (rep_players r) p = Some (Some pr) /\ pr_velocity pr = (v, w).
Definition afterwards (r : report Loc) (p : nat) (v : vec) (w : R) : Prop :=
  exists pr : player_report (Sh := Sh) Loc, aget Nat.eqb (rep_players r) p = Some (Some pr) /\ pr_velocity_after pr = Some (v, w).
Definition reported_delta (r : report Loc) (p : nat) (d : R) : Prop :=
  exists pr : player_report (Sh := Sh) Loc, aget Nat.eqb (rep_players r) p = Some (Some pr) /\ pr_energy_delta pr = Some d.

(** A resolved collision of two solid bodies [a] and [b] with centres of mass
    [ca], [cb]; [n], [P] are the reported normal and impact point, [v*], [w*] the
    velocities of the models before and [v*'], [w*'] the reported ones after. *)
Definition two_bodies (sh : shapely Sh) (a b : nat) (ms : list (nat * M)) sc t ms' rep
  (m1 i1 e1 m2 i2 e2 : R) (ca cb n P va vb va' vb' : vec) (wa wb wa' wb' : R) : Prop :=
  a <> b /\ resolve_collision sh md a b ms sc t = (ms', Ok (Some rep)) /\
  (exists ma mb, aget Nat.eqb ms a = Some ma /\ aget Nat.eqb ms b = Some mb /\ solid ma m1 i1 e1 /\ solid mb m2 i2 e2 /\
                 cog ma = ca /\ cog mb = cb /\ md_velocity md ma = (va, wa) /\ md_velocity md mb = (vb, wb)) /\
  rep_normal rep = Some n /\ rep_point rep = Some P /\ before rep a va wa /\ before rep b vb wb /\ afterwards rep a va' wa' /\ afterwards rep b vb' wb'.

(** The same against an obstacle that is infinitely heavy. *)
Definition against_wall (sh : shapely Sh) (everywhere : Loc) (env a : nat) (m : M) bs gb t m' rep
  (m1 i1 e1 : R) (ca n P va va' : vec) (wa wa' : R) : Prop :=
  a <> env /\ resolve_collision_with_environment sh md everywhere env a m bs gb t = (m', Ok (Some rep)) /\ solid m m1 i1 e1 /\ g_m gb = Inf /\ g_Iz gb = Inf /\
  cog m = ca /\ md_velocity md m = (va, wa) /\ rep_normal rep = Some n /\ rep_point rep = Some P /\ before rep a va wa /\ afterwards rep a va' wa'.
End S.

(** *** Reports *)
Section Rep.
Context {Sh Loc : Type}.
Implicit Type r : report (Sh := Sh) Loc.
(** What [r] says on player [p]. *)
Definition says r (p : nat) (pr : player_report Loc) : Prop := aget Nat.eqb (rep_players r) p = Some (Some pr).
(** The players of a report; a report that says something on each of them. *)
Definition players_of r : list nat := map fst (rep_players r).
Definition complete r : Prop := NoDup (players_of r) /\ forall p, In p (players_of r) -> exists pr, says r p pr.
Definition same_players r1 r2 : Prop := forall p, In p (players_of r1) <-> In p (players_of r2).
(** Pre-collision data of [p1], post-collision data of [p2], sums. *)
Definition joined (p1 p2 : player_report (Sh := Sh) Loc) : player_report (Sh := Sh) Loc :=
  mkPR (pr_locations p1 ++ pr_locations p2) (pr_at_fault p1) (pr_footprint p1) (pr_velocity p1) (pr_velocity_after p2)
       (match pr_energy_delta p1, pr_energy_delta p2 with Some x, Some y => Some (x + y) | _, _ => None end).
(** [r1] is not later than any report of the list, and so on. *)
Fixpoint time_ordered (r1 : report (Sh := Sh) Loc) (rs : list (report (Sh := Sh) Loc)) : Prop :=
  match rs with [] => True | r2 :: rest => rep_time r1 <= rep_time r2 /\ time_ordered r2 rest end.
End Rep.

(** Against the direction of the lane or outside of it. *)
Definition illegal_on (l : lane) (pose : mat) : Prop := fst (l pose) = false \/ snd (l pose) = false.
