(** Vocabulary of the statements on collisions of models. *)
From Coq Require Import String Reals List Bool Arith.
From Verif Require Import Base R2 GeoModel DataModel DataSpec LaneModel BodyModel BodySpec DynModel DrawModel CollModel CollSpec BuildModel BuildSpec ImpactModel.
Import ListNotations.
Open Scope R_scope.

(** The model moves with velocity [v] in the world and turns with [w]. *)
Definition moves (m : model) (v : vec) (w : R) : Prop := velocity m = Ok (v, w).
(** Its mass, moment of inertia and restitution. *)
Definition weighs (m : model) (mass iz e : R) : Prop := ge_m (mo_geo m) = Some mass /\ ge_Iz (mo_geo m) = Some iz /\ ge_e (mo_geo m) = e /\ 0 < mass /\ 0 < iz.
(** The model [m'] is [m] after a collision: it has collided and may have another velocity,
    everything else is the same (position, heading, steering, parameters, body). *)
Definition stays (m m' : model) : Prop := mo_kind m' = mo_kind m /\ mo_geo m' = mo_geo m /\ mo_params m' = mo_params m /\ mo_shape m' = mo_shape m /\ mo_collided m' = true /\
  forall f, ~ In f ["vx"; "vy"; "dpsi"; "dtheta"]%string -> getattr (mo_state m') f = getattr (mo_state m) f.

Section S.
Variable union : list (list vec) -> list vec.
Variable quad : nat.
Variable valid : list vec -> bool.
Variable middle : list vec -> vec.

(** A state of the class of the model and methods that do not raise. *)
Definition usable (m : model) : Prop := instance_of (state_class (mo_kind m)) (mo_state m) /\
  (exists f, get_footprint union quad valid m = Ok f) /\ (exists l, get_mesh union quad valid middle m = Ok l) /\ (exists v w, moves m v w).

(** A resolved collision: [ma], [mb] are the models of the players [a], [b] before and
    [ma'], [mb'] after; [n] and [P] the normal and the point of impact reported. *)
Definition crash (sh : shapely (list vec)) (a b : nat) (ms : list (nat * model)) sc t ms' (rep : report (Sh := list vec) string) (n P : vec) (ma mb ma' mb' : model) : Prop :=
  a <> b /\ resolve_collision sh (seen union quad valid middle) a b ms sc t = (ms', Ok (Some rep)) /\ rep_normal rep = Some n /\ rep_point rep = Some P /\
  aget Nat.eqb ms a = Some ma /\ aget Nat.eqb ms b = Some mb /\ aget Nat.eqb ms' a = Some ma' /\ aget Nat.eqb ms' b = Some mb' /\ usable ma /\ usable mb.
(** The same with the environment. *)
Definition crash_env (sh : shapely (list vec)) (ew : string) (env a : nat) (m : model) bs gb t (m' : model) (rep : report (Sh := list vec) string) (n P : vec) : Prop :=
  a <> env /\ resolve_collision_with_environment sh (seen union quad valid middle) ew env a m bs (as_body gb) t = (m', Ok (Some rep)) /\ ge_m gb = None /\ ge_Iz gb = None /\
  rep_normal rep = Some n /\ rep_point rep = Some P /\ usable m.
End S.

(** Both bodies before and after, of masses and inertias [m1 i1 m2 i2]. *)
Definition restitution (e : R) (n P ca va va' cb vb vb' : vec) (wa wa' wb wb' : R) : Prop :=
  vdot (vsub (contact va' wa' ca P) (contact vb' wb' cb P)) n = - e * vdot (vsub (contact va wa ca P) (contact vb wb cb P)) n.
Definition same_momentum (m1 m2 : R) (va va' vb vb' : vec) : Prop := vadd (momentum m1 va') (momentum m2 vb') = vadd (momentum m1 va) (momentum m2 vb).
Definition same_spin (m1 i1 m2 i2 : R) (ca va va' cb vb vb' : vec) (wa wa' wb wb' : R) : Prop :=
  forall o, ang_momentum m1 i1 ca va' wa' o + ang_momentum m2 i2 cb vb' wb' o = ang_momentum m1 i1 ca va wa o + ang_momentum m2 i2 cb vb wb o.
Definition no_more_energy (m1 i1 m2 i2 : R) (va va' vb vb' : vec) (wa wa' wb wb' : R) : Prop :=
  energy m1 i1 va' wa' + energy m2 i2 vb' wb' <= energy m1 i1 va wa + energy m2 i2 vb wb.
(** The component of [v] in the direction [psi]. *)
Definition forward (psi : R) (v : vec) : R := cos psi * fst v + sin psi * snd v.
(** Models whose velocity can be written: free bodies, and vehicles with straight wheels,
    which can only take the forward part. *)
Definition straight (m : model) : Prop := mo_kind m = KVehicle /\ has (mo_state m) "delta" 0.
(** The distance between the axles of a vehicle, and that of its rear axle from its
    centre of mass. *)
Definition between_axles (b : gbody) : R := match b with GVehicle g _ _ _ _ _ => g_lf g + g_lr g | _ => 0 end.
Definition to_rear_axle (b : gbody) : R := match b with GVehicle g _ _ _ _ _ => g_lr g | _ => 0 end.
(** What [m] does afterwards as [m'], standing at the heading [psi] with the wheels
    turned by [d]: it rolls with the forward part of [v]. *)
Definition rolls (m m' : model) (psi d : R) (v : vec) : Prop :=
  let L := between_axles (ge_body (mo_geo m)) in let lr := to_rear_axle (ge_body (mo_geo m)) in let u := forward psi v in
  stays m m' /\ moves m' (in_world (0, 0) psi (u, u * tan d / L * lr)) (u * tan d / L).
(** Two bodies that are moving into each other at [P]. *)
Definition approaching (n P ca va cb vb : vec) (wa wb : R) : Prop := 0 < vdot (vsub (contact va wa ca P) (contact vb wb cb P)) n.
(** The component of [v] to the left of the direction [psi]. *)
Definition sideways (psi : R) (v : vec) : R := cos psi * snd v - sin psi * fst v.
