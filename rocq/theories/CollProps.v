(* Generated from tools/Coll.src by tools/gen_props.py. *)
(** Properties of collision resolution and collision reports. *)
From Coq Require Import Reals Lra Psatz List Bool Arith Lia.
From Verif Require Import Base R2 GeoModel GeoSpec GeoProofs DictLemmas AssocLemmas CollModel CollSpec CollProofs CollExamples.
Import ListNotations.
Open Scope R_scope.
From Verif Require Import CollMain.

(** ** C40 *)

(** The contact points of the two bodies separate along the normal at the smaller
    restitution coefficient times the speed at which they approached. *)
Theorem C40_restitution : forall (Sh M Loc : Type) (sh : shapely Sh) (md : model_ops (Sh := Sh) M Loc) a b ms sc t ms' rep m1 i1 e1 m2 i2 e2 ca cb n P va vb va' vb' wa wb wa' wb',
  flag_only md -> two_bodies md sh a b ms sc t ms' rep m1 i1 e1 m2 i2 e2 ca cb n P va vb va' vb' wa wb wa' wb' ->
  vdot (vsub (contact va' wa' ca P) (contact vb' wb' cb P)) n = - Rmin e1 e2 * vdot (vsub (contact va wa ca P) (contact vb wb cb P)) n.
Proof. exact C40_restitution_pf. Qed.
Print Assumptions C40_restitution.

(** Two cars, one rotating, hitting off-centre. *)
Example C40_ex : flag_only ex_md /\ exists ms' rep va' wa' vb' wb',
  two_bodies ex_md (ex_sh false) 1 2 [(1%nat, ex_body (0, 0) (3, 1) (-1) (1 / 2)); (2%nat, ex_body (2, 2) (1, 0) 0 (1 / 3))] None 0 ms' rep
    1 1 (1 / 2) 1 1 (1 / 3) (0, 0) (2, 2) (1, 0) (midpoint (0, 0) (2, 2)) (3, 1) (1, 0) va' vb' (-1) 0 wa' wb'.
Proof. split; [exact ex_flag_only|]. apply ex_resolve; [cbn; lra|]. vunf. unfold midpoint, velocity_of_P_given_A. vunf. cbn. lra. Qed.

(** An infinitely heavy obstacle. *)
Theorem C40_restitution_environment : forall (Sh M Loc : Type) (sh : shapely Sh) (md : model_ops (Sh := Sh) M Loc) ew env a m bs gb t m' rep m1 i1 e1 ca n P va va' wa wa',
  flag_only md -> against_wall md sh ew env a m bs gb t m' rep m1 i1 e1 ca n P va va' wa wa' ->
  vdot (contact va' wa' ca P) n = - Rmin e1 (g_e gb) * vdot (contact va wa ca P) n.
Proof. exact C40_restitution_environment_pf. Qed.
Print Assumptions C40_restitution_environment.

Example C40_wall_ex : exists m' rep va' wa', against_wall ex_md (ex_sh false) 9%nat 0 1 (ex_body (0, 0) (3, 1) (-1) (1 / 2)) (2, 2) (mkG Inf Inf (1 / 3)) 0 m' rep
    1 1 (1 / 2) (0, 0) (1, 0) (midpoint (0, 0) (2, 2)) (3, 1) va' (-1) wa'.
Proof.
  destruct (ex_env (0, 0) (3, 1) (-1) (1 / 2) (2, 2) (mkG Inf Inf (1 / 3)) 0) as (rep & E & N & P & B & A); [cbn; lra|unfold midpoint, velocity_of_P_given_A; vunf; cbn; lra|].
  do 4 eexists. split; [discriminate|]. split; [exact E|]. split; [split; [reflexivity|split; lra]|]. split; [reflexivity|]. split; [reflexivity|]. split; [apply ex_cog|]. split; [reflexivity|].
  split; [exact N|]. split; [exact P|]. split; [exact B|exact A].
Qed.

(** For an obstacle of finite mass (StaticObstacle takes any geometry) the law
    fails: the obstacle is not moved and the lever arm used is (1, 1). *)
Theorem C40_light_obstacle_refuted : exists (gb : geometry) m' rep n P va va' wa wa' ca,
  resolve_collision_with_environment (ex_sh false) ex_md 9%nat 0 1 (ex_body ca va wa 0) (2, 0) gb 0 = (m', Ok (Some rep)) /\
  g_m gb = Fin 1 /\ g_Iz gb = Fin 1 /\ rep_normal rep = Some n /\ rep_point rep = Some P /\ afterwards rep 1 va' wa' /\
  vdot (contact va' wa' ca P) n <> - Rmin 0 (g_e gb) * vdot (contact va wa ca P) n.
Proof. exact C40_light_obstacle_refuted_pf. Qed.
Print Assumptions C40_light_obstacle_refuted.

(** ** C41 *)

(** Total linear momentum and total angular momentum about any point are conserved;
    the velocities change along the normal only, by equal and opposite impulses
    that push the bodies apart. *)
Theorem C41_momentum : forall (Sh M Loc : Type) (sh : shapely Sh) (md : model_ops (Sh := Sh) M Loc) a b ms sc t ms' rep m1 i1 e1 m2 i2 e2 ca cb n P va vb va' vb' wa wb wa' wb',
  flag_only md -> two_bodies md sh a b ms sc t ms' rep m1 i1 e1 m2 i2 e2 ca cb n P va vb va' vb' wa wb wa' wb' ->
  vadd (momentum m1 va') (momentum m2 vb') = vadd (momentum m1 va) (momentum m2 vb) /\
  (forall o, ang_momentum m1 i1 ca va' wa' o + ang_momentum m2 i2 cb vb' wb' o = ang_momentum m1 i1 ca va wa o + ang_momentum m2 i2 cb vb wb o) /\
  exists j, (-1 <= Rmin e1 e2 -> j <= 0) /\
    momentum m1 (vsub va' va) = vscale j n /\ momentum m2 (vsub vb' vb) = vscale (- j) n /\
    i1 * (wa' - wa) = vcross (vsub P ca) (vscale j n) /\ i2 * (wb' - wb) = vcross (vsub P cb) (vscale (- j) n).
Proof. exact C41_momentum_pf. Qed.
Print Assumptions C41_momentum.

Example C41_ex : flag_only ex_md /\ (exists ms' rep va' wa' vb' wb',
  two_bodies ex_md (ex_sh false) 1 2 [(1%nat, ex_body (0, 0) (3, 1) (-1) (1 / 2)); (2%nat, ex_body (2, 2) (1, 0) 0 (1 / 3))] None 0 ms' rep
    1 1 (1 / 2) 1 1 (1 / 3) (0, 0) (2, 2) (1, 0) (midpoint (0, 0) (2, 2)) (3, 1) (1, 0) va' vb' (-1) 0 wa' wb') /\ -1 <= Rmin (1 / 2) (1 / 3).
Proof. split; [exact ex_flag_only|]. split; [|apply Rmin_glb; lra]. apply ex_resolve; [cbn; lra|]. vunf. unfold midpoint, velocity_of_P_given_A. vunf. cbn. lra. Qed.

(** ** C42 *)

(** For restitution in [0, 1] kinetic energy (translational plus rotational) is
    never created; with restitution 1 it is conserved; less restitution than 1 and
    a non-zero approach speed lose energy. *)
Theorem C42_energy : forall (Sh M Loc : Type) (sh : shapely Sh) (md : model_ops (Sh := Sh) M Loc) a b ms sc t ms' rep m1 i1 e1 m2 i2 e2 ca cb n P va vb va' vb' wa wb wa' wb',
  flag_only md -> two_bodies md sh a b ms sc t ms' rep m1 i1 e1 m2 i2 e2 ca cb n P va vb va' vb' wa wb wa' wb' -> 0 <= e1 <= 1 -> 0 <= e2 <= 1 ->
  energy m1 i1 va' wa' + energy m2 i2 vb' wb' <= energy m1 i1 va wa + energy m2 i2 vb wb /\
  (e1 = 1 -> e2 = 1 -> energy m1 i1 va' wa' + energy m2 i2 vb' wb' = energy m1 i1 va wa + energy m2 i2 vb wb) /\
  (e1 < 1 \/ e2 < 1 -> vdot (vsub (contact va wa ca P) (contact vb wb cb P)) n <> 0 ->
     energy m1 i1 va' wa' + energy m2 i2 vb' wb' < energy m1 i1 va wa + energy m2 i2 vb wb).
Proof. exact C42_energy_pf. Qed.
Print Assumptions C42_energy.

Example C42_ex : flag_only ex_md /\ (exists ms' rep va' wa' vb' wb',
  two_bodies ex_md (ex_sh false) 1 2 [(1%nat, ex_body (0, 0) (3, 1) (-1) (1 / 2)); (2%nat, ex_body (2, 2) (1, 0) 0 (1 / 3))] None 0 ms' rep
    1 1 (1 / 2) 1 1 (1 / 3) (0, 0) (2, 2) (1, 0) (midpoint (0, 0) (2, 2)) (3, 1) (1, 0) va' vb' (-1) 0 wa' wb') /\
  vdot (vsub (contact (3, 1) (-1) (0, 0) (midpoint (0, 0) (2, 2))) (contact (1, 0) 0 (2, 2) (midpoint (0, 0) (2, 2)))) (1, 0) <> 0.
Proof. split; [exact ex_flag_only|]. split; [apply ex_resolve; [cbn; lra|]; vunf; unfold midpoint, velocity_of_P_given_A; vunf; cbn; lra|]. unfold contact, midpoint. vunf. cbn. lra. Qed.

(** The same against an infinitely heavy obstacle. *)
Theorem C42_energy_environment : forall (Sh M Loc : Type) (sh : shapely Sh) (md : model_ops (Sh := Sh) M Loc) ew env a m bs gb t m' rep m1 i1 e1 ca n P va va' wa wa',
  flag_only md -> against_wall md sh ew env a m bs gb t m' rep m1 i1 e1 ca n P va va' wa wa' -> 0 <= e1 <= 1 -> 0 <= g_e gb <= 1 ->
  energy m1 i1 va' wa' <= energy m1 i1 va wa /\ (e1 = 1 -> g_e gb = 1 -> energy m1 i1 va' wa' = energy m1 i1 va wa).
Proof. exact C42_energy_environment_pf. Qed.
Print Assumptions C42_energy_environment.

Example C42_wall_ex : exists m' rep va' wa', against_wall ex_md (ex_sh false) 9%nat 0 1 (ex_body (0, 0) (3, 1) (-1) (1 / 2)) (2, 2) (mkG Inf Inf (1 / 3)) 0 m' rep
    1 1 (1 / 2) (0, 0) (1, 0) (midpoint (0, 0) (2, 2)) (3, 1) va' (-1) wa'.
Proof. exact C40_wall_ex. Qed.

(** The energy differences in the report are translational only; their sum may be
    positive for inelastic bodies although energy was lost. *)
Theorem C42_reported_energy_refuted : exists ms ms' rep va' vb' wa' wb' d1 d2,
  two_bodies ex_md (ex_sh false) 1 2 ms None 0 ms' rep 1 1 0 1 1 0 (0, 0) (2, 2) (1, 0) (1, 1) (0, 0) (0, 0) va' vb' (-1) 0 wa' wb' /\
  reported_delta rep 1 d1 /\ reported_delta rep 2 d2 /\ 0 < d1 + d2.
Proof. exact C42_reported_energy_refuted_pf. Qed.
Print Assumptions C42_reported_energy_refuted.

(** ** C43 *)

(** Bodies whose contact points move apart: no report, nothing changed.  And only
    then is there no report. *)
Theorem C43_separating : forall (Sh M Loc : Type) (sh : shapely Sh) (md : model_ops (Sh := Sh) M Loc) a b ms sc t ma mb n P va wa vb wb,
  aget Nat.eqb ms a = Some ma -> aget Nat.eqb ms b = Some mb -> md_velocity md ma = (va, wa) -> md_velocity md mb = (vb, wb) ->
  compute_impact_geometry sh (md_footprint md ma) (md_footprint md mb) = Ok (Some n, P) ->
  let apart := vdot (vsub (contact va wa (cog md ma) P) (contact vb wb (cog md mb) P)) n < 0 in
  (apart -> resolve_collision sh md a b ms sc t = (ms, Ok None)) /\
  (forall ms', resolve_collision sh md a b ms sc t = (ms', Ok None) -> apart).
Proof. exact C43_separating_pf. Qed.
Print Assumptions C43_separating.

Theorem C43_separating_environment : forall (Sh M Loc : Type) (sh : shapely Sh) (md : model_ops (Sh := Sh) M Loc) ew env a m bs gb t n P va wa,
  md_velocity md m = (va, wa) -> compute_impact_geometry sh (md_footprint md m) bs = Ok (Some n, P) ->
  let apart := vdot (contact va wa (cog md m) P) n < 0 in
  (apart -> resolve_collision_with_environment sh md ew env a m bs gb t = (m, Ok None)) /\
  (forall m', resolve_collision_with_environment sh md ew env a m bs gb t = (m', Ok None) -> apart).
Proof. exact C43_separating_environment_pf. Qed.
Print Assumptions C43_separating_environment.

(** Otherwise both are flagged as collided; each gets the velocity that its report
    states, and no other model is touched. *)
Theorem C43_resolved : forall (Sh M Loc : Type) (sh : shapely Sh) (md : model_ops (Sh := Sh) M Loc) a b ms sc t ms' rep,
  flag_only md -> a <> b -> resolve_collision sh md a b ms sc t = (ms', Ok (Some rep)) ->
  exists ma mb pa pb, aget Nat.eqb ms a = Some ma /\ aget Nat.eqb ms b = Some mb /\ players_of rep = [a; b] /\ says rep a pa /\ says rep b pb /\
    aget Nat.eqb ms' a = Some (md_set_velocity md (md_set_collided md ma) (pr_velocity_after pa)) /\
    aget Nat.eqb ms' b = Some (md_set_velocity md (md_set_collided md mb) (pr_velocity_after pb)) /\
    (forall p, p <> a -> p <> b -> aget Nat.eqb ms' p = aget Nat.eqb ms p) /\
    pr_velocity pa = md_velocity md ma /\ pr_velocity pb = md_velocity md mb /\ pr_footprint pa = md_footprint md ma /\ pr_footprint pb = md_footprint md mb /\ rep_time rep = t.
Proof. exact C43_resolved_pf. Qed.
Print Assumptions C43_resolved.

Theorem C43_resolved_environment : forall (Sh M Loc : Type) (sh : shapely Sh) (md : model_ops (Sh := Sh) M Loc) ew env a m bs gb t m' rep,
  flag_only md -> a <> env -> resolve_collision_with_environment sh md ew env a m bs gb t = (m', Ok (Some rep)) ->
  exists pa pe, players_of rep = [a; env] /\ says rep a pa /\ says rep env pe /\ m' = md_set_velocity md (md_set_collided md m) (pr_velocity_after pa) /\
    pr_at_fault pa = true /\ pr_at_fault pe = false /\ pr_velocity pa = md_velocity md m /\ pr_velocity pe = ((0, 0), 0) /\ pr_velocity_after pe = Some ((0, 0), 0) /\ rep_time rep = t.
Proof. exact C43_resolved_environment_pf. Qed.
Print Assumptions C43_resolved_environment.

(** A body that starts to move apart, and one that does not. *)
Example C43_ex :
  aget Nat.eqb [(1%nat, ex_body (0, 0) (-3, 1) 0 0); (2%nat, ex_body (2, 2) (1, 0) 0 0)] 1%nat = Some (ex_body (0, 0) (-3, 1) 0 0) /\
  compute_impact_geometry (ex_sh false) (0, 0) (2, 2) = Ok (Some (1, 0), midpoint (0, 0) (2, 2)) /\
  vdot (vsub (contact (-3, 1) 0 (0, 0) (midpoint (0, 0) (2, 2))) (contact (1, 0) 0 (2, 2) (midpoint (0, 0) (2, 2)))) (1, 0) < 0 /\
  exists ms' rep, resolve_collision (ex_sh false) ex_md 1 2 [(1%nat, ex_body (0, 0) (3, 1) 0 0); (2%nat, ex_body (2, 2) (1, 0) 0 0)] None 0 = (ms', Ok (Some rep)).
Proof.
  split; [reflexivity|]. split; [apply ex_geom; cbn; lra|]. split; [unfold contact, midpoint; vunf; cbn; lra|].
  destruct (ex_resolve (0, 0) (3, 1) 0 (2, 2) (1, 0) 0 0 0 None 0) as (ms' & rep & ? & ? & ? & ? & _ & H & _); [cbn; lra|unfold midpoint, velocity_of_P_given_A; vunf; cbn; lra|].
  exists ms', rep. exact H.
Qed.

(** When no part of a model's mesh meets the other body, the exception leaves the
    models flagged as collided, with their old velocities. *)
Theorem C43_exception_after_flagging : forall (Sh M Loc : Type) (sh : shapely Sh) (md : model_ops (Sh := Sh) M Loc) a b ms sc t ma mb n P va wa vb wb,
  flag_only md -> a <> b -> aget Nat.eqb ms a = Some ma -> aget Nat.eqb ms b = Some mb -> md_velocity md ma = (va, wa) -> md_velocity md mb = (vb, wb) ->
  compute_impact_geometry sh (md_footprint md ma) (md_footprint md mb) = Ok (Some n, P) ->
  0 <= vdot (vsub (contact va wa (cog md ma) P) (contact vb wb (cog md mb) P)) n ->
  (forall l, In l (md_mesh md ma) -> intersects sh (md_footprint md mb) (snd l) = false) ->
  exists ms', resolve_collision sh md a b ms sc t = (ms', Err CollisionException) /\
    aget Nat.eqb ms' a = Some (md_set_collided md ma) /\ aget Nat.eqb ms' b = Some (md_set_collided md mb).
Proof. exact C43_exception_after_flagging_pf. Qed.
Print Assumptions C43_exception_after_flagging.

Example C43_exception_ex : let sh := mkShp (touches (ex_sh false)) (contains (ex_sh false)) (fun _ _ => false) (centroid (ex_sh false)) (intersection (ex_sh false)) (contains_pt (ex_sh false)) (is_polygon (ex_sh false)) (to_polygon (ex_sh false)) in
  compute_impact_geometry sh (0, 0) (2, 2) = Ok (Some (1, 0), midpoint (0, 0) (2, 2)) /\
  0 <= vdot (vsub (contact (3, 1) 0 (0, 0) (midpoint (0, 0) (2, 2))) (contact (1, 0) 0 (2, 2) (midpoint (0, 0) (2, 2)))) (1, 0) /\
  (forall l, In l (md_mesh ex_md (ex_body (0, 0) (3, 1) 0 0)) -> intersects sh (2, 2) (snd l) = false).
Proof. split; [exact (ex_geom (0, 0) (2, 2) ltac:(cbn; lra))|]. split; [unfold contact, midpoint; vunf; cbn; lra|]. intros l _. reflexivity. Qed.

(** ** C44 *)

(** The normal is a unit vector that makes a non-obtuse angle with the direction
    from the first body's centre to the impact point.  Partly overlapping bodies: the
    impact point is the midpoint of, and the normal perpendicular to, the chord between
    the two points where the outlines cross.  A body that contains the other: the
    impact point is the centre of the inner one and the normal points to it. *)
Theorem C44_normal : forall (Sh : Type) (sh : shapely Sh) a b n P, compute_impact_geometry sh a b = Ok (Some n, P) ->
  vdot n n = 1 /\ 0 <= vdot (vsub P (centroid sh a)) n /\
  (contains sh a b = false -> exists p q, find_intersection_points sh a b = Ok [p; q] /\ P = ((fst p + fst q) / 2, (snd p + snd q) / 2) /\ vdot (vsub q p) n = 0) /\
  (contains sh a b = true -> P = centroid sh b /\ vsub P (centroid sh a) = vscale (vnorm (vsub P (centroid sh a))) n).
Proof. exact C44_normal_pf. Qed.
Print Assumptions C44_normal.

(** Bodies that overlap in a polygon with exactly two distinct vertices on the
    outline of both: there is a normal. *)
Theorem C44_defined : forall (Sh : Type) (sh : shapely Sh) a b ext p q,
  touches sh a b = false -> contains sh a b = false -> intersection sh a b = IPolygon (ext ++ [hd p ext]) ->
  filter (fun x => negb (contains_pt sh a x || contains_pt sh b x)) ext = [p; q] -> p <> q ->
  exists n, compute_impact_geometry sh a b = Ok (Some n, midpoint p q).
Proof. exact C44_defined_pf. Qed.
Print Assumptions C44_defined.

Example C44_ex : compute_impact_geometry (ex_sh false) (0, 0) (2, 5) = Ok (Some (1, 0), midpoint (0, 0) (2, 5)).
Proof. apply ex_geom. cbn. lra. Qed.

(** Not every pair of bodies has a normal: if one contains the other and their
    centres coincide the result is nan. *)
Theorem C44_concentric_refuted : exists (sh : shapely vec) a b P, touches sh a b = false /\ contains sh a b = true /\ compute_impact_geometry sh a b = Ok (None, P).
Proof. exact C44_concentric_refuted_pf. Qed.
Print Assumptions C44_concentric_refuted.

(** Nor is the direction "from the first to the second": when the second body
    contains the first, or crosses its outline elsewhere than twice, an exception is
    raised. *)
Theorem C44_crossings : forall (Sh : Type) (sh : shapely Sh) a b ext, touches sh a b = false -> contains sh a b = false -> intersection sh a b = IPolygon ext ->
  length (filter (fun x => negb (contains_pt sh a x || contains_pt sh b x)) (removelast ext)) <> 2%nat ->
  compute_impact_geometry sh a b = Err CollisionException.
Proof. exact C44_crossings_pf. Qed.
Print Assumptions C44_crossings.

(** ** C45 *)

(** A player of a collision is at fault exactly when its pose is illegal on every
    lane at the impact point; without a scenario nobody is. *)
Theorem C45_fault : forall (Sh M Loc : Type) (sh : shapely Sh) (md : model_ops (Sh := Sh) M Loc) a b ms sc t ms' rep,
  flag_only md -> a <> b -> resolve_collision sh md a b ms sc t = (ms', Ok (Some rep)) ->
  exists ma mb pa pb P, aget Nat.eqb ms a = Some ma /\ aget Nat.eqb ms b = Some mb /\ says rep a pa /\ says rep b pb /\ rep_point rep = Some P /\
    (sc = None -> pr_at_fault pa = false /\ pr_at_fault pb = false) /\
    (forall net, sc = Some net ->
       (pr_at_fault pa = true <-> forall l, In l (net P) -> illegal_on l (md_pose md ma)) /\
       (pr_at_fault pb = true <-> forall l, In l (net P) -> illegal_on l (md_pose md mb))).
Proof. exact C45_fault_pf. Qed.
Print Assumptions C45_fault.

Example C45_ex : exists ms' rep, resolve_collision (ex_sh false) ex_md 1 2 [(1%nat, ex_body (0, 0) (3, 1) 0 0); (2%nat, ex_body (2, 2) (1, 0) 0 0)] (Some (fun _ => [fun q => (true, if Rlt_dec (m02 q) 1 then true else false)])) 0 = (ms', Ok (Some rep)).
Proof.
  destruct (ex_resolve (0, 0) (3, 1) 0 (2, 2) (1, 0) 0 0 0 (Some (fun _ => [fun q => (true, if Rlt_dec (m02 q) 1 then true else false)])) 0) as (ms' & rep & ? & ? & ? & ? & _ & H & _); [cbn; lra|unfold midpoint, velocity_of_P_given_A; vunf; cbn; lra|].
  exists ms', rep. exact H.
Qed.

(** Where the map has no lane, both are declared at fault. *)
Theorem C45_no_lane_refuted : exists ms ms' rep pa pb, resolve_collision (ex_sh false) ex_md 1 2 ms (Some (fun _ => [])) 0 = (ms', Ok (Some rep)) /\
  says rep 1 pa /\ says rep 2 pb /\ pr_at_fault pa = true /\ pr_at_fault pb = true.
Proof. exact C45_no_lane_refuted_pf. Qed.
Print Assumptions C45_no_lane_refuted.

(** ** C46 *)

(** Combining: the earlier report's impact, time and pre-collision data, the later
    one's post-collision data, energies added. *)
Theorem C46_combine : forall (Sh Loc : Type) (r1 r2 : report (Sh := Sh) Loc), complete r1 -> complete r2 -> same_players r1 r2 -> rep_time r1 <= rep_time r2 ->
  exists r, combine_collision_reports r1 r2 = Ok r /\ rep_point r = rep_point r1 /\ rep_normal r = rep_normal r1 /\ rep_time r = rep_time r1 /\
    complete r /\ players_of r = players_of r1 /\ forall p p1 p2, says r1 p p1 -> says r2 p p2 -> says r p (joined p1 p2).
Proof. exact C46_combine_pf. Qed.
Print Assumptions C46_combine.

(** The order of the arguments does not matter unless the times are equal. *)
Theorem C46_commutative : forall (Sh Loc : Type) (r1 r2 : report (Sh := Sh) Loc), rep_time r1 <> rep_time r2 -> combine_collision_reports r1 r2 = combine_collision_reports r2 r1.
Proof. exact C46_commutative_pf. Qed.
Print Assumptions C46_commutative.

Theorem C46_different_players : forall (Sh Loc : Type) (r1 r2 : report (Sh := Sh) Loc), ~ same_players r1 r2 -> combine_collision_reports r1 r2 = Err ZValueError.
Proof. exact C46_different_players_pf. Qed.
Print Assumptions C46_different_players.

(** Associativity on reports in time order. *)
Theorem C46_associative : forall (Sh Loc : Type) (r1 r2 r3 : report (Sh := Sh) Loc), complete r1 -> complete r2 -> complete r3 -> same_players r1 r2 -> same_players r2 r3 ->
  rep_time r1 <= rep_time r2 <= rep_time r3 ->
  exists r12 r23 r, combine_collision_reports r1 r2 = Ok r12 /\ combine_collision_reports r2 r3 = Ok r23 /\
    combine_collision_reports r12 r3 = Ok r /\ combine_collision_reports r1 r23 = Ok r.
Proof. exact C46_associative_pf. Qed.
Print Assumptions C46_associative.

Example C46_ex : complete (ex_rep 1 0 1 5) /\ complete (ex_rep 2 1 2 6) /\ complete (ex_rep 3 2 3 7) /\ same_players (ex_rep 1 0 1 5) (ex_rep 2 1 2 6) /\ same_players (ex_rep 2 1 2 6) (ex_rep 3 2 3 7) /\ 1 <= 2 <= 3.
Proof. split; [apply ex_rep_complete|]. split; [apply ex_rep_complete|]. split; [apply ex_rep_complete|]. split; [intro p; reflexivity|]. split; [intro p; reflexivity|lra]. Qed.

(** Out of time order it is not associative: impacts at times 1, 3 and 2; combining
    the first two first loses the post-collision data of the last impact. *)
Theorem C46_unordered_associative_refuted : exists (r1 r2 r3 : report (Sh := vec) nat) r12 r23 r r', complete r1 /\ complete r2 /\ complete r3 /\ same_players r1 r2 /\ same_players r2 r3 /\
  combine_collision_reports r1 r2 = Ok r12 /\ combine_collision_reports r2 r3 = Ok r23 /\
  combine_collision_reports r12 r3 = Ok r /\ combine_collision_reports r1 r23 = Ok r' /\ r <> r'.
Proof. exact C46_unordered_associative_refuted_pf. Qed.
Print Assumptions C46_unordered_associative_refuted.

(** Reducing a whole accident: any number of reports in time order. *)
Theorem C46_accident : forall (Sh Loc : Type) (rs : list (report (Sh := Sh) Loc)) (r0 : report (Sh := Sh) Loc), complete r0 -> (forall r, In r rs -> complete r /\ same_players r0 r) -> time_ordered r0 rs ->
  exists r, fold_left (fun acc x => match acc with Err e => Err e | Ok y => combine_collision_reports y x end) rs (Ok r0) = Ok r /\
    players_of r = players_of r0 /\ rep_point r = rep_point r0 /\ rep_normal r = rep_normal r0 /\ rep_time r = rep_time r0 /\
    forall p pr0, says r0 p pr0 -> exists pr plast, says r p pr /\ says (last rs r0) p plast /\
      pr_velocity pr = pr_velocity pr0 /\ pr_at_fault pr = pr_at_fault pr0 /\ pr_footprint pr = pr_footprint pr0 /\ pr_velocity_after pr = pr_velocity_after plast /\
      exists prs, Forall2 (fun x y => says x p y) rs prs /\ pr_locations pr = pr_locations pr0 ++ flat_map pr_locations prs /\
        pr_energy_delta pr = fold_left (fun acc y => match acc, pr_energy_delta y with Some e1, Some e2 => Some (e1 + e2) | _, _ => None end) prs (pr_energy_delta pr0).
Proof. exact C46_accident_pf. Qed.
Print Assumptions C46_accident.

Example C46_accident_ex : complete (ex_rep 1 0 1 5) /\ (forall r, In r [ex_rep 2 1 2 6; ex_rep 2 2 3 7] -> complete r /\ same_players (ex_rep 1 0 1 5) r) /\ time_ordered (ex_rep 1 0 1 5) [ex_rep 2 1 2 6; ex_rep 2 2 3 7].
Proof.
  split; [apply ex_rep_complete|]. split; [|cbn; lra]. intros r [<-|[<-|[]]]; (split; [apply ex_rep_complete|intro p; reflexivity]).
Qed.

(** The empty report is not neutral: a player without data in it makes the
    combination fail. *)
Theorem C46_empty_not_neutral_refuted : exists (r : report (Sh := vec) nat), complete r /\
  combine_collision_reports r (get_empty (map (fun p => (p, None)) (players_of r)) (rep_time r)) = Err PyAttributeError /\
  combine_collision_reports (get_empty (map (fun p => (p, None)) (players_of r)) (rep_time r)) r = Err PyAttributeError.
Proof. exact C46_empty_not_neutral_refuted_pf. Qed.
Print Assumptions C46_empty_not_neutral_refuted.
