(** Properties of collision resolution and collision reports. *)
From Coq Require Import Reals Lra Psatz List Bool Arith Lia.
From Verif Require Import Base R2 GeoModel GeoSpec GeoProofs DictLemmas AssocLemmas CollModel CollSpec CollProofs CollExamples.
Import ListNotations.
Open Scope R_scope.
(* BODY *)

(** ** C40 *)

(** The contact points of the two bodies separate along the normal at the smaller
    restitution coefficient times the speed at which they approached. *)
Theorem C40_restitution : forall (Sh M Loc : Type) (sh : shapely Sh) (md : model_ops (Sh := Sh) M Loc) a b ms sc t ms' rep m1 i1 e1 m2 i2 e2 ca cb n P va vb va' vb' wa wb wa' wb',
  flag_only md -> two_bodies md sh a b ms sc t ms' rep m1 i1 e1 m2 i2 e2 ca cb n P va vb va' vb' wa wb wa' wb' ->
  vdot (vsub (contact va' wa' ca P) (contact vb' wb' cb P)) n = - Rmin e1 e2 * vdot (vsub (contact va wa ca P) (contact vb wb cb P)) n.
Proof.
  intros * Fl H. destruct (two_bodies_inv sh md _ _ _ _ _ _ _ _ _ _ _ _ _ _ _ _ _ _ _ _ _ _ _ _ _ Fl H) as (_ & _ & _ & _ & N & K & _ & -> & -> & -> & -> & _). cbv zeta in K.
  rewrite !contact_P.
  exact (impulse_restitution n va vb (vsub P ca) (vsub P cb) wa wb (/ m1) (/ m2) (/ i1) (/ i2) (Rmin e1 e2) N ltac:(apply Rgt_not_eq; exact K)).
Qed.

(** Two cars, one rotating, hitting off-centre. *)
Example C40_ex : flag_only ex_md /\ exists ms' rep va' wa' vb' wb',
  two_bodies ex_md (ex_sh false) 1 2 [(1%nat, ex_body (0, 0) (3, 1) (-1) (1 / 2)); (2%nat, ex_body (2, 2) (1, 0) 0 (1 / 3))] None 0 ms' rep
    1 1 (1 / 2) 1 1 (1 / 3) (0, 0) (2, 2) (1, 0) (midpoint (0, 0) (2, 2)) (3, 1) (1, 0) va' vb' (-1) 0 wa' wb'.
Proof. split; [exact ex_flag_only|]. apply ex_resolve; [cbn; lra|]. vunf. unfold midpoint, velocity_of_P_given_A. vunf. cbn. lra. Qed.

(** An infinitely heavy obstacle. *)
Theorem C40_restitution_environment : forall (Sh M Loc : Type) (sh : shapely Sh) (md : model_ops (Sh := Sh) M Loc) ew env a m bs gb t m' rep m1 i1 e1 ca n P va va' wa wa',
  flag_only md -> against_wall md sh ew env a m bs gb t m' rep m1 i1 e1 ca n P va va' wa wa' ->
  vdot (contact va' wa' ca P) n = - Rmin e1 (g_e gb) * vdot (contact va wa ca P) n.
Proof.
  intros * Fl H. destruct (against_wall_inv sh md _ _ _ _ _ _ _ _ _ _ _ _ _ _ _ _ _ _ _ Fl H) as (_ & _ & N & K & _ & -> & -> & _). cbv zeta in K.
  rewrite !contact_P. set (ra := vsub P ca) in *. set (vn := vdot (velocity_of_P_given_A va wa ra) n) in *. set (k := / m1 + vcross ra n * vcross ra n * / i1) in *.
  set (j := - (1 + Rmin e1 (g_e gb)) * vn / k).
  assert (E : vdot (velocity_of_P_given_A (vadd va (vscale (j * / m1) n)) (wa + j * vcross ra n * / i1) ra) n = vn + j * (/ m1 * vdot n n + vcross ra n * vcross ra n * / i1)).
  { unfold vn, velocity_of_P_given_A, vdot, vadd, vscale, rot90, vcross. cbn [fst snd]. ring. }
  rewrite E, N, Rmult_1_r. fold k. unfold j. field. lra.
Qed.

Example C40_wall_ex : exists m' rep va' wa', against_wall ex_md (ex_sh false) 9%nat 0 1 (ex_body (0, 0) (3, 1) (-1) (1 / 2)) (2, 2) (mkG Inf Inf (1 / 3)) 0 m' rep
    1 1 (1 / 2) (0, 0) (1, 0) (midpoint (0, 0) (2, 2)) (3, 1) va' (-1) wa'.
Proof.
  destruct (ex_env (0, 0) (3, 1) (-1) (1 / 2) (2, 2) (mkG Inf Inf (1 / 3)) 0) as (rep & E & N & P & B & A); [cbn; lra|unfold midpoint, velocity_of_P_given_A; vunf; cbn; lra|].
  do 4 eexists. split; [discriminate|]. split; [exact E|]. split; [split; [reflexivity|split; lra]|]. split; [reflexivity|]. split; [reflexivity|]. split; [apply ex_cog|]. split; [reflexivity|].
  split; [exact N|]. split; [exact P|]. split; [exact B|exact A].
Qed.

(** For an obstacle of finite mass (StaticObstacle takes any geometry) the law
    fails: the obstacle is not moved and the lever arm used is (1, 1). *)
Theorem C40_light_obstacle_refuted : exists (gb : geometry) m' rep n P va va' wa wa' ca,
  resolve_collision_with_environment (ex_sh false) ex_md 9%nat 0 1 (ex_body ca va wa 0) (2, 0) gb 0 = (m', Ok (Some rep)) /\
  g_m gb = Fin 1 /\ g_Iz gb = Fin 1 /\ rep_normal rep = Some n /\ rep_point rep = Some P /\ afterwards rep 1 va' wa' /\
  vdot (contact va' wa' ca P) n <> - Rmin 0 (g_e gb) * vdot (contact va wa ca P) n.
Proof.
  destruct (ex_env (0, 0) (3, 0) 0 0 (2, 0) (mkG (Fin 1) (Fin 1) 0) 0) as (rep & E & N & P & B & A); [cbn; lra|unfold midpoint, velocity_of_P_given_A; vunf; cbn; lra|].
  exists (mkG (Fin 1) (Fin 1) 0). do 9 eexists. split; [exact E|]. split; [reflexivity|]. split; [reflexivity|]. split; [exact N|]. split; [exact P|]. split; [exact A|].
  unfold contact, compute_impulse_response, velocity_after_collision, rot_velocity_after_collision, midpoint, velocity_of_P_given_A, vover, over. vunf. cbn [fst snd g_e g_m g_Iz].
  rewrite (Rmin_left 0 0) by lra. lra.
Qed.

(** ** C41 *)

(** Total linear momentum and total angular momentum about any point are conserved;
    the velocities change along the normal only, by equal and opposite impulses
    that push the bodies apart. *)
Theorem C41_momentum : forall (Sh M Loc : Type) (sh : shapely Sh) (md : model_ops (Sh := Sh) M Loc) a b ms sc t ms' rep m1 i1 e1 m2 i2 e2 ca cb n P va vb va' vb' wa wb wa' wb',
  flag_only md -> two_bodies md sh a b ms sc t ms' rep m1 i1 e1 m2 i2 e2 ca cb n P va vb va' vb' wa wb wa' wb' ->
  vadd (momentum m1 va') (momentum m2 vb') = vadd (momentum m1 va) (momentum m2 vb) /\
  (forall o, ang_momentum m1 i1 ca va' wa' o + ang_momentum m2 i2 cb vb' wb' o = ang_momentum m1 i1 ca va wa o + ang_momentum m2 i2 cb vb wb o) /\
  exists j, (-1 <= Rmin e1 e2 -> j <= 0) /\
    momentum m1 (vsub va' va) = vscale j n /\ momentum m2 (vsub vb' vb) = vscale (- j) n /\
    i1 * (wa' - wa) = vcross (vsub P ca) (vscale j n) /\ i2 * (wb' - wb) = vcross (vsub P cb) (vscale (- j) n).
Proof.
  intros * Fl H. destruct (two_bodies_inv sh md _ _ _ _ _ _ _ _ _ _ _ _ _ _ _ _ _ _ _ _ _ _ _ _ _ Fl H) as (P1 & P2 & P3 & P4 & N & K & V & -> & -> & -> & -> & _). cbv zeta in K, V.
  assert (I1 : m1 * / m1 = 1) by (field; lra). assert (I2 : m2 * / m2 = 1) by (field; lra). assert (I3 : i1 * / i1 = 1) by (field; lra). assert (I4 : i2 * / i2 = 1) by (field; lra).
  split; [exact (impulse_momentum n va vb (vsub P ca) (vsub P cb) wa wb (/ m1) (/ m2) (/ i1) (/ i2) (Rmin e1 e2) m1 m2 I1 I2)|].
  split; [intro o; exact (impulse_ang_momentum n va vb (vsub P ca) (vsub P cb) wa wb (/ m1) (/ m2) (/ i1) (/ i2) (Rmin e1 e2) m1 m2 i1 i2 ca cb P o I1 I2 I3 I4 eq_refl eq_refl)|].
  set (vn := vdot (vsub (velocity_of_P_given_A va wa (vsub P ca)) (velocity_of_P_given_A vb wb (vsub P cb))) n) in *.
  set (k := / m1 + / m2 + (vcross (vsub P ca) n * vcross (vsub P ca) n * / i1 + vcross (vsub P cb) n * vcross (vsub P cb) n * / i2)) in *.
  exists (- (1 + Rmin e1 e2) * vn / k). split.
  { intro E. assert (0 <= (1 + Rmin e1 e2) * vn / k) by (apply Rmult_le_pos; [nra|left; apply Rinv_0_lt_compat; exact K]). unfold Rdiv in *. lra. }
  generalize (- (1 + Rmin e1 e2) * vn / k). intro j. unfold momentum, vsub, vadd, vscale, vcross. cbn [fst snd].
  split; [f_equal; field; lra|]. split; [f_equal; field; lra|]. split; field; lra.
Qed.

Example C41_ex : flag_only ex_md /\ (exists ms' rep va' wa' vb' wb',
  two_bodies ex_md (ex_sh false) 1 2 [(1%nat, ex_body (0, 0) (3, 1) (-1) (1 / 2)); (2%nat, ex_body (2, 2) (1, 0) 0 (1 / 3))] None 0 ms' rep
    1 1 (1 / 2) 1 1 (1 / 3) (0, 0) (2, 2) (1, 0) (midpoint (0, 0) (2, 2)) (3, 1) (1, 0) va' vb' (-1) 0 wa' wb') /\ -1 <= Rmin (1 / 2) (1 / 3).
Proof. split; [exact ex_flag_only|]. split; [|apply Rmin_glb; lra]. apply ex_resolve; [cbn; lra|]. vunf. unfold midpoint, velocity_of_P_given_A. vunf. cbn. lra. Qed.

(** ** C42 *)

(** For restitution in [0, 1] kinetic energy (translational plus rotational) is
    never created; with restitution 1 it is conserved; less restitution than 1 and
    a non-zero approach speed lose energy. *)
Theorem C42_energy : forall (Sh M Loc : Type) (sh : shapely Sh) (md : model_ops (Sh := Sh) M Loc) a b ms sc t ms' rep m1 i1 e1 m2 i2 e2 ca cb n P va vb va' vb' wa wb wa' wb',
  flag_only md -> two_bodies md sh a b ms sc t ms' rep m1 i1 e1 m2 i2 e2 ca cb n P va vb va' vb' wa wb wa' wb' -> 0 <= e1 <= 1 -> 0 <= e2 <= 1 ->
  energy m1 i1 va' wa' + energy m2 i2 vb' wb' <= energy m1 i1 va wa + energy m2 i2 vb wb /\
  (e1 = 1 -> e2 = 1 -> energy m1 i1 va' wa' + energy m2 i2 vb' wb' = energy m1 i1 va wa + energy m2 i2 vb wb) /\
  (e1 < 1 \/ e2 < 1 -> vdot (vsub (contact va wa ca P) (contact vb wb cb P)) n <> 0 ->
     energy m1 i1 va' wa' + energy m2 i2 vb' wb' < energy m1 i1 va wa + energy m2 i2 vb wb).
Proof.
  intros * Fl H E1 E2. destruct (two_bodies_inv sh md _ _ _ _ _ _ _ _ _ _ _ _ _ _ _ _ _ _ _ _ _ _ _ _ _ Fl H) as (P1 & P2 & P3 & P4 & N & K & V & -> & -> & -> & -> & _). cbv zeta in K, V.
  assert (I1 : m1 * / m1 = 1) by (field; lra). assert (I2 : m2 * / m2 = 1) by (field; lra). assert (I3 : i1 * / i1 = 1) by (field; lra). assert (I4 : i2 * / i2 = 1) by (field; lra).
  pose proof (impulse_energy n va vb (vsub P ca) (vsub P cb) wa wb (/ m1) (/ m2) (/ i1) (/ i2) (Rmin e1 e2) m1 m2 i1 i2 N ltac:(apply Rgt_not_eq; exact K) I1 I2 I3 I4) as X.
  cbv beta zeta in X. rewrite !contact_P.
  set (vn := vdot (vsub (velocity_of_P_given_A va wa (vsub P ca)) (velocity_of_P_given_A vb wb (vsub P cb))) n) in *.
  set (k := / m1 + / m2 + (vcross (vsub P ca) n * vcross (vsub P ca) n * / i1 + vcross (vsub P cb) n * vcross (vsub P cb) n * / i2)) in *.
  match type of X with ?A - ?B = _ => set (after := A) in *; set (bef := B) in * end.
  assert (Hk : 0 < / (2 * k)) by (apply Rinv_0_lt_compat; lra).
  assert (Re : 0 <= Rmin e1 e2 <= 1) by (split; [apply Rmin_glb; lra|apply Rle_trans with e1; [apply Rmin_l|lra]]).
  split; [|split].
  - assert (0 <= (1 - Rmin e1 e2 * Rmin e1 e2) * (vn * vn) * / (2 * k)) by (apply Rmult_le_pos; [apply Rmult_le_pos; nra|lra]). unfold Rdiv in X. lra.
  - intros -> ->. rewrite Rmin_left in X by lra. unfold Rdiv in X. lra.
  - intros He Hv. assert (Re' : Rmin e1 e2 < 1) by (destruct He; [apply Rle_lt_trans with e1; [apply Rmin_l|lra]|apply Rle_lt_trans with e2; [apply Rmin_r|lra]]).
    assert (0 < (1 - Rmin e1 e2 * Rmin e1 e2) * (vn * vn) * / (2 * k)) by (apply Rmult_lt_0_compat; [apply Rmult_lt_0_compat; [nra|apply Rsqr_pos_lt; exact Hv]|lra]). unfold Rdiv in X. lra.
Qed.

Example C42_ex : flag_only ex_md /\ (exists ms' rep va' wa' vb' wb',
  two_bodies ex_md (ex_sh false) 1 2 [(1%nat, ex_body (0, 0) (3, 1) (-1) (1 / 2)); (2%nat, ex_body (2, 2) (1, 0) 0 (1 / 3))] None 0 ms' rep
    1 1 (1 / 2) 1 1 (1 / 3) (0, 0) (2, 2) (1, 0) (midpoint (0, 0) (2, 2)) (3, 1) (1, 0) va' vb' (-1) 0 wa' wb') /\
  vdot (vsub (contact (3, 1) (-1) (0, 0) (midpoint (0, 0) (2, 2))) (contact (1, 0) 0 (2, 2) (midpoint (0, 0) (2, 2)))) (1, 0) <> 0.
Proof. split; [exact ex_flag_only|]. split; [apply ex_resolve; [cbn; lra|]; vunf; unfold midpoint, velocity_of_P_given_A; vunf; cbn; lra|]. unfold contact, midpoint. vunf. cbn. lra. Qed.

(** The same against an infinitely heavy obstacle. *)
Theorem C42_energy_environment : forall (Sh M Loc : Type) (sh : shapely Sh) (md : model_ops (Sh := Sh) M Loc) ew env a m bs gb t m' rep m1 i1 e1 ca n P va va' wa wa',
  flag_only md -> against_wall md sh ew env a m bs gb t m' rep m1 i1 e1 ca n P va va' wa wa' -> 0 <= e1 <= 1 -> 0 <= g_e gb <= 1 ->
  energy m1 i1 va' wa' <= energy m1 i1 va wa /\ (e1 = 1 -> g_e gb = 1 -> energy m1 i1 va' wa' = energy m1 i1 va wa).
Proof.
  intros * Fl H E1 E2. destruct (against_wall_inv sh md _ _ _ _ _ _ _ _ _ _ _ _ _ _ _ _ _ _ _ Fl H) as (P1 & P2 & N & K & _ & -> & -> & _). cbv zeta in K.
  set (ra := vsub P ca) in *. set (vn := vdot (velocity_of_P_given_A va wa ra) n) in *. set (k := / m1 + vcross ra n * vcross ra n * / i1) in *. set (e := Rmin e1 (g_e gb)).
  set (j := - (1 + e) * vn / k).
  assert (X : energy m1 i1 (vadd va (vscale (j * / m1) n)) (wa + j * vcross ra n * / i1) - energy m1 i1 va wa = - ((1 - e * e) * (vn * vn)) / (2 * k)).
  { assert (Y : energy m1 i1 (vadd va (vscale (j * / m1) n)) (wa + j * vcross ra n * / i1) - energy m1 i1 va wa = j * vn + 1 / 2 * (j * j) * (/ m1 * vdot n n + vcross ra n * vcross ra n * / i1)).
    { unfold vn. generalize j. intro j0. unfold energy, velocity_of_P_given_A, vdot, vadd, vscale, rot90, vcross. cbn [fst snd]. field. split; lra. }
    rewrite Y, N, Rmult_1_r. fold k. unfold j. field. lra. }
  assert (Hk : 0 < / (2 * k)) by (apply Rinv_0_lt_compat; lra).
  assert (Re : 0 <= e <= 1) by (unfold e; split; [apply Rmin_glb; lra|apply Rle_trans with e1; [apply Rmin_l|lra]]).
  split.
  - assert (0 <= (1 - e * e) * (vn * vn) * / (2 * k)) by (apply Rmult_le_pos; [apply Rmult_le_pos; nra|lra]). unfold Rdiv in X. lra.
  - intros A B. assert (e = 1) as Z by (unfold e; rewrite A, B; apply Rmin_left; lra). rewrite Z in X. unfold Rdiv in X. lra.
Qed.

Example C42_wall_ex : exists m' rep va' wa', against_wall ex_md (ex_sh false) 9%nat 0 1 (ex_body (0, 0) (3, 1) (-1) (1 / 2)) (2, 2) (mkG Inf Inf (1 / 3)) 0 m' rep
    1 1 (1 / 2) (0, 0) (1, 0) (midpoint (0, 0) (2, 2)) (3, 1) va' (-1) wa'.
Proof. exact C40_wall_ex. Qed.

(** The energy differences in the report are translational only; their sum may be
    positive for inelastic bodies although energy was lost. *)
Theorem C42_reported_energy_refuted : exists ms ms' rep va' vb' wa' wb' d1 d2,
  two_bodies ex_md (ex_sh false) 1 2 ms None 0 ms' rep 1 1 0 1 1 0 (0, 0) (2, 2) (1, 0) (1, 1) (0, 0) (0, 0) va' vb' (-1) 0 wa' wb' /\
  reported_delta rep 1 d1 /\ reported_delta rep 2 d2 /\ 0 < d1 + d2.
Proof.
  exists [(1%nat, ex_body (0, 0) (0, 0) (-1) 0); (2%nat, ex_body (2, 2) (0, 0) 0 0)].
  destruct (ex_resolve (0, 0) (0, 0) (-1) (2, 2) (0, 0) 0 0 0 None 0) as (ms' & rep & va' & wa' & vb' & wb' & H); [cbn; lra|unfold midpoint, velocity_of_P_given_A; vunf; cbn; lra|].
  destruct (two_bodies_inv (ex_sh false) ex_md _ _ _ _ _ _ _ _ _ _ _ _ _ _ _ _ _ _ _ _ _ _ _ _ _ ex_flag_only H) as (_ & _ & _ & _ & _ & _ & _ & Ea & _ & Eb & _ & D1 & D2).
  replace (midpoint (0, 0) (2, 2)) with ((1, 1) : vec) in * by (unfold midpoint, vscale, vadd; cbn [fst snd]; f_equal; field).
  exists ms', rep, va', vb', wa', wb'. do 2 eexists. split; [exact H|]. split; [exact D1|]. split; [exact D2|].
  rewrite Ea, Eb, (Rmin_left 0 0) by lra. unfold velocity_of_P_given_A. vunf. cbn [fst snd]. field_simplify. lra.
Qed.

(** ** C43 *)

(** Bodies whose contact points move apart: no report, nothing changed.  And only
    then is there no report. *)
Theorem C43_separating : forall (Sh M Loc : Type) (sh : shapely Sh) (md : model_ops (Sh := Sh) M Loc) a b ms sc t ma mb n P va wa vb wb,
  aget Nat.eqb ms a = Some ma -> aget Nat.eqb ms b = Some mb -> md_velocity md ma = (va, wa) -> md_velocity md mb = (vb, wb) ->
  compute_impact_geometry sh (md_footprint md ma) (md_footprint md mb) = Ok (Some n, P) ->
  let apart := vdot (vsub (contact va wa (cog md ma) P) (contact vb wb (cog md mb) P)) n < 0 in
  (apart -> resolve_collision sh md a b ms sc t = (ms, Ok None)) /\
  (forall ms', resolve_collision sh md a b ms sc t = (ms', Ok None) -> apart).
Proof.
  intros * Ea Eb Va Vb Eg. cbv zeta. rewrite !contact_P. unfold resolve_collision. unfold agetE. rewrite Ea, Eb, Eg, Va, Vb. cbv zeta. fold (cog md ma) (cog md mb).
  destruct (Rlt_dec _ 0) as [L|L]; [split; [reflexivity|intros _ _; exact L]|]. split; [contradiction|]. intros ms' H.
  destruct (impact_locations_from_polygons sh md _ _); [|discriminate]. destruct (impact_locations_from_polygons sh md _ _); [|discriminate].
  match type of H with (match ?x with Ok _ => _ | Err _ => _ end) = _ => destruct x as [[fa fb]|]; [|discriminate] end. discriminate.
Qed.

Theorem C43_separating_environment : forall (Sh M Loc : Type) (sh : shapely Sh) (md : model_ops (Sh := Sh) M Loc) ew env a m bs gb t n P va wa,
  md_velocity md m = (va, wa) -> compute_impact_geometry sh (md_footprint md m) bs = Ok (Some n, P) ->
  let apart := vdot (contact va wa (cog md m) P) n < 0 in
  (apart -> resolve_collision_with_environment sh md ew env a m bs gb t = (m, Ok None)) /\
  (forall m', resolve_collision_with_environment sh md ew env a m bs gb t = (m', Ok None) -> apart).
Proof.
  intros * Va Eg. cbv zeta. rewrite !contact_P. unfold resolve_collision_with_environment. rewrite Eg, Va. cbv zeta. fold (cog md m).
  destruct (Rlt_dec _ 0) as [L|L]; [split; [reflexivity|intros _ _; exact L]|]. split; [contradiction|]. intros m' H.
  destruct (impact_locations_from_polygons sh md _ _); [|discriminate].
  match type of H with (match ?x with Ok _ => _ | Err _ => _ end) = _ => destruct x as [pb|]; [|discriminate] end. discriminate.
Qed.

(** Otherwise both are flagged as collided; each gets the velocity that its report
    states, and no other model is touched. *)
Theorem C43_resolved : forall (Sh M Loc : Type) (sh : shapely Sh) (md : model_ops (Sh := Sh) M Loc) a b ms sc t ms' rep,
  flag_only md -> a <> b -> resolve_collision sh md a b ms sc t = (ms', Ok (Some rep)) ->
  exists ma mb pa pb, aget Nat.eqb ms a = Some ma /\ aget Nat.eqb ms b = Some mb /\ players_of rep = [a; b] /\ says rep a pa /\ says rep b pb /\
    aget Nat.eqb ms' a = Some (md_set_velocity md (md_set_collided md ma) (pr_velocity_after pa)) /\
    aget Nat.eqb ms' b = Some (md_set_velocity md (md_set_collided md mb) (pr_velocity_after pb)) /\
    (forall p, p <> a -> p <> b -> aget Nat.eqb ms' p = aget Nat.eqb ms p) /\
    pr_velocity pa = md_velocity md ma /\ pr_velocity pb = md_velocity md mb /\ pr_footprint pa = md_footprint md ma /\ pr_footprint pb = md_footprint md mb /\ rep_time rep = t.
Proof.
  intros * Fl Hab H. destruct (resolve_inv sh md a b ms sc t ms' rep Fl Hab H) as (ma & mb & va & wa & vb & wb & P & nrm & la & lb & fa & fb & Ea & Eb & Va & Vb & _ & _ & _ & Et & _ & _ & _ & _ & J).
  cbv zeta in J. destruct J as (_ & aa & ab & Ep & -> & _). exists ma, mb. eexists; eexists. split; [exact Ea|]. split; [exact Eb|]. unfold players_of, says. rewrite Ep.
  split; [reflexivity|]. split; [rewrite aget_cons, Nat.eqb_refl; reflexivity|]. split; [rewrite !aget_cons, (proj2 (Nat.eqb_neq a b) Hab), Nat.eqb_refl; reflexivity|]. cbn [pr_velocity_after pr_velocity pr_footprint].
  split; [rewrite dget_dset_other by congruence; apply dget_dset_same|]. split; [apply dget_dset_same|].
  split; [intros p N1 N2; rewrite !dget_dset_other by congruence; reflexivity|].
  split; [symmetry; exact Va|]. split; [symmetry; exact Vb|]. split; [reflexivity|]. split; [reflexivity|exact Et].
Qed.

Theorem C43_resolved_environment : forall (Sh M Loc : Type) (sh : shapely Sh) (md : model_ops (Sh := Sh) M Loc) ew env a m bs gb t m' rep,
  flag_only md -> a <> env -> resolve_collision_with_environment sh md ew env a m bs gb t = (m', Ok (Some rep)) ->
  exists pa pe, players_of rep = [a; env] /\ says rep a pa /\ says rep env pe /\ m' = md_set_velocity md (md_set_collided md m) (pr_velocity_after pa) /\
    pr_at_fault pa = true /\ pr_at_fault pe = false /\ pr_velocity pa = md_velocity md m /\ pr_velocity pe = ((0, 0), 0) /\ pr_velocity_after pe = Some ((0, 0), 0) /\ rep_time rep = t.
Proof.
  intros * Fl Hae H. destruct (resolve_env_inv sh md ew env a m bs gb t m' rep Fl H) as (va & wa & P & nrm & la & pb & Va & _ & _ & _ & Et & _ & _ & J).
  cbv zeta in J. destruct J as (_ & aa & Ep & -> & _). eexists; eexists. unfold players_of, says. rewrite Ep.
  split; [reflexivity|]. split; [rewrite aget_cons, Nat.eqb_refl; reflexivity|]. split; [rewrite !aget_cons, (proj2 (Nat.eqb_neq a env) Hae), Nat.eqb_refl; reflexivity|].
  cbn [pr_velocity_after pr_velocity pr_at_fault]. split; [reflexivity|]. split; [reflexivity|]. split; [reflexivity|]. split; [symmetry; exact Va|]. split; [reflexivity|]. split; [reflexivity|exact Et].
Qed.

(** A body that starts to move apart, and one that does not. *)
Example C43_ex :
  aget Nat.eqb [(1%nat, ex_body (0, 0) (-3, 1) 0 0); (2%nat, ex_body (2, 2) (1, 0) 0 0)] 1%nat = Some (ex_body (0, 0) (-3, 1) 0 0) /\
  compute_impact_geometry (ex_sh false) (0, 0) (2, 2) = Ok (Some (1, 0), midpoint (0, 0) (2, 2)) /\
  vdot (vsub (contact (-3, 1) 0 (0, 0) (midpoint (0, 0) (2, 2))) (contact (1, 0) 0 (2, 2) (midpoint (0, 0) (2, 2)))) (1, 0) < 0 /\
  exists ms' rep, resolve_collision (ex_sh false) ex_md 1 2 [(1%nat, ex_body (0, 0) (3, 1) 0 0); (2%nat, ex_body (2, 2) (1, 0) 0 0)] None 0 = (ms', Ok (Some rep)).
Proof.
  split; [reflexivity|]. split; [apply ex_geom; cbn; lra|]. split; [unfold contact, midpoint; vunf; cbn; lra|].
  destruct (ex_resolve (0, 0) (3, 1) 0 (2, 2) (1, 0) 0 0 0 None 0) as (ms' & rep & ? & ? & ? & ? & _ & H & _); [cbn; lra|unfold midpoint, velocity_of_P_given_A; vunf; cbn; lra|].
  exists ms', rep. exact H.
Qed.

(** When no part of a model's mesh meets the other body, the exception leaves the
    models flagged as collided, with their old velocities. *)
Theorem C43_exception_after_flagging : forall (Sh M Loc : Type) (sh : shapely Sh) (md : model_ops (Sh := Sh) M Loc) a b ms sc t ma mb n P va wa vb wb,
  flag_only md -> a <> b -> aget Nat.eqb ms a = Some ma -> aget Nat.eqb ms b = Some mb -> md_velocity md ma = (va, wa) -> md_velocity md mb = (vb, wb) ->
  compute_impact_geometry sh (md_footprint md ma) (md_footprint md mb) = Ok (Some n, P) ->
  0 <= vdot (vsub (contact va wa (cog md ma) P) (contact vb wb (cog md mb) P)) n ->
  (forall l, In l (md_mesh md ma) -> intersects sh (md_footprint md mb) (snd l) = false) ->
  exists ms', resolve_collision sh md a b ms sc t = (ms', Err CollisionException) /\
    aget Nat.eqb ms' a = Some (md_set_collided md ma) /\ aget Nat.eqb ms' b = Some (md_set_collided md mb).
Proof.
  intros * Fl Hab Ea Eb Va Vb Eg Hd Hl. rewrite !contact_P in Hd. unfold resolve_collision. unfold agetE. rewrite Ea, Eb, Eg, Va, Vb. cbv zeta. fold (cog md ma) (cog md mb).
  destruct (Rlt_dec _ 0) as [L|_]; [lra|]. destruct (Fl ma) as (_ & F2 & _).
  assert (X : impact_locations_from_polygons sh md (md_set_collided md ma) (md_footprint md mb) = Err CollisionException).
  { unfold impact_locations_from_polygons. rewrite F2. replace (filter _ (md_mesh md ma)) with (@nil (Loc * Sh)); [reflexivity|].
    clear -Hl. revert Hl. generalize (md_mesh md ma). intro l. induction l as [|x l IH]; intro Hl; [reflexivity|]. cbn [filter]. rewrite (Hl x (or_introl eq_refl)). apply IH. intros y I. apply Hl. right. exact I. }
  rewrite X. eexists. split; [reflexivity|]. split; [rewrite dget_dset_other by congruence; apply dget_dset_same|apply dget_dset_same].
Qed.

Example C43_exception_ex : let sh := mkShp (touches (ex_sh false)) (contains (ex_sh false)) (fun _ _ => false) (centroid (ex_sh false)) (intersection (ex_sh false)) (contains_pt (ex_sh false)) (is_polygon (ex_sh false)) (to_polygon (ex_sh false)) in
  compute_impact_geometry sh (0, 0) (2, 2) = Ok (Some (1, 0), midpoint (0, 0) (2, 2)) /\
  0 <= vdot (vsub (contact (3, 1) 0 (0, 0) (midpoint (0, 0) (2, 2))) (contact (1, 0) 0 (2, 2) (midpoint (0, 0) (2, 2)))) (1, 0) /\
  (forall l, In l (md_mesh ex_md (ex_body (0, 0) (3, 1) 0 0)) -> intersects sh (2, 2) (snd l) = false).
Proof. split; [exact (ex_geom (0, 0) (2, 2) ltac:(cbn; lra))|]. split; [unfold contact, midpoint; vunf; cbn; lra|]. intros l _. reflexivity. Qed.

(** ** C44 *)

(** The normal is a unit vector that makes a non-obtuse angle with the direction
    from the first body's centre to the impact point.  Partly overlapping bodies: the
    impact point is the midpoint of, and the normal perpendicular to, the chord between
    the two points where the outlines cross.  A body that contains the other: the
    impact point is the centre of the inner one and the normal points to it. *)
Theorem C44_normal : forall (Sh : Type) (sh : shapely Sh) a b n P, compute_impact_geometry sh a b = Ok (Some n, P) ->
  vdot n n = 1 /\ 0 <= vdot (vsub P (centroid sh a)) n /\
  (contains sh a b = false -> exists p q, find_intersection_points sh a b = Ok [p; q] /\ P = ((fst p + fst q) / 2, (snd p + snd q) / 2) /\ vdot (vsub q p) n = 0) /\
  (contains sh a b = true -> P = centroid sh b /\ vsub P (centroid sh a) = vscale (vnorm (vsub P (centroid sh a))) n).
Proof.
  intros Sh sh a b n P H. apply impact_inv in H as (_ & [(C & EP & _ & H)|(C & p & q & F & EP & _ & H)]).
  - destruct (H n eq_refl) as [N D]. split; [exact N|]. split; [|split; [congruence|auto]].
    rewrite D. set (r := vnorm (vsub P (centroid sh a))). assert (0 <= r) by (unfold r, vnorm; apply sqrt_pos). unfold vdot, vscale in *. cbn [fst snd]. replace (r * fst n * fst n + r * snd n * snd n) with (r * (fst n * fst n + snd n * snd n)) by ring. rewrite N. lra.
  - destruct (H n eq_refl) as (N & D & G). split; [exact N|]. split; [exact G|]. split; [|congruence]. intros _. exists p, q. split; [exact F|]. split; [|exact D].
    rewrite EP. unfold midpoint, vscale, vadd. cbn [fst snd]. f_equal; field.
Qed.

(** Bodies that overlap in a polygon with exactly two distinct vertices on the
    outline of both: there is a normal. *)
Theorem C44_defined : forall (Sh : Type) (sh : shapely Sh) a b ext p q,
  touches sh a b = false -> contains sh a b = false -> intersection sh a b = IPolygon (ext ++ [hd p ext]) ->
  filter (fun x => negb (contains_pt sh a x || contains_pt sh b x)) ext = [p; q] -> p <> q ->
  exists n, compute_impact_geometry sh a b = Ok (Some n, midpoint p q).
Proof.
  intros * Ht Hc Hi Hf Hpq. unfold compute_impact_geometry. rewrite Ht, Hc. unfold find_intersection_points. rewrite Hi, removelast_last, Hf. cbn [length Nat.eqb].
  pose proof (normalize_spec (- snd (vsub q p), fst (vsub q p))) as S. destruct (normalize _) as [n|].
  - destruct (Rlt_dec _ 0); eexists; reflexivity.
  - exfalso. apply Hpq. unfold vsub in S. cbn [fst snd] in S. injection S as S1 S2. destruct p as [x y], q as [x' y']. cbn [fst snd] in *. f_equal; lra.
Qed.

Example C44_ex : compute_impact_geometry (ex_sh false) (0, 0) (2, 5) = Ok (Some (1, 0), midpoint (0, 0) (2, 5)).
Proof. apply ex_geom. cbn. lra. Qed.

(** Not every pair of bodies has a normal: if one contains the other and their
    centres coincide the result is nan. *)
Theorem C44_concentric_refuted : exists (sh : shapely vec) a b P, touches sh a b = false /\ contains sh a b = true /\ compute_impact_geometry sh a b = Ok (None, P).
Proof.
  exists (ex_sh true), (0, 0), (0, 0), (0, 0). split; [reflexivity|]. split; [reflexivity|]. unfold compute_impact_geometry. cbn [ex_sh touches contains centroid].
  replace (vsub (0, 0) (0, 0)) with ((0, 0) : vec) by (unfold vsub; cbn; f_equal; ring). unfold normalize. destruct (Req_EM_T (vnorm (0, 0)) 0) as [_|E]; [reflexivity|].
  exfalso. apply E. apply vnorm_zero. reflexivity.
Qed.

(** Nor is the direction "from the first to the second": when the second body
    contains the first, or crosses its outline elsewhere than twice, an exception is
    raised. *)
Theorem C44_crossings : forall (Sh : Type) (sh : shapely Sh) a b ext, touches sh a b = false -> contains sh a b = false -> intersection sh a b = IPolygon ext ->
  length (filter (fun x => negb (contains_pt sh a x || contains_pt sh b x)) (removelast ext)) <> 2%nat ->
  compute_impact_geometry sh a b = Err CollisionException.
Proof.
  intros * Ht Hc Hi Hl. unfold compute_impact_geometry. rewrite Ht, Hc. unfold find_intersection_points. rewrite Hi, (proj2 (Nat.eqb_neq _ _) Hl). reflexivity.
Qed.

(** ** C45 *)

(** A player of a collision is at fault exactly when its pose is illegal on every
    lane at the impact point; without a scenario nobody is. *)
Theorem C45_fault : forall (Sh M Loc : Type) (sh : shapely Sh) (md : model_ops (Sh := Sh) M Loc) a b ms sc t ms' rep,
  flag_only md -> a <> b -> resolve_collision sh md a b ms sc t = (ms', Ok (Some rep)) ->
  exists ma mb pa pb P, aget Nat.eqb ms a = Some ma /\ aget Nat.eqb ms b = Some mb /\ says rep a pa /\ says rep b pb /\ rep_point rep = Some P /\
    (sc = None -> pr_at_fault pa = false /\ pr_at_fault pb = false) /\
    (forall net, sc = Some net ->
       (pr_at_fault pa = true <-> forall l, In l (net P) -> illegal_on l (md_pose md ma)) /\
       (pr_at_fault pb = true <-> forall l, In l (net P) -> illegal_on l (md_pose md mb))).
Proof.
  intros * Fl Hab H. destruct (resolve_inv sh md a b ms sc t ms' rep Fl Hab H) as (ma & mb & va & wa & vb & wb & P & nrm & la & lb & fa & fb & Ea & Eb & Va & Vb & _ & EP & _ & Et & _ & _ & S1 & S2 & J).
  cbv zeta in J. destruct J as (_ & aa & ab & Ep & _). exists ma, mb. eexists; eexists. exists P. split; [exact Ea|]. split; [exact Eb|]. unfold says. rewrite Ep.
  split; [rewrite aget_cons, Nat.eqb_refl; reflexivity|]. split; [rewrite !aget_cons, (proj2 (Nat.eqb_neq a b) Hab), Nat.eqb_refl; reflexivity|]. split; [exact EP|]. cbn [pr_at_fault]. split; [exact S1|].
  intros net E. specialize (S2 net E). cbn [check_who_is_at_fault map fst snd] in S2. injection S2 as -> ->.
  assert (X : forall pose, forallb is_illegal_lanepose (map (fun l : lane => l pose) (net P)) = true <-> forall l, In l (net P) -> illegal_on l pose).
  { intro pose. rewrite forallb_forall. split.
    - intros F l I. specialize (F (l pose) (in_map (fun l : lane => l pose) _ _ I)). unfold is_illegal_lanepose in F. unfold illegal_on. destruct (fst (l pose)); [destruct (snd (l pose)); [discriminate|auto]|auto].
    - intros F x I. apply in_map_iff in I as (l & <- & I). destruct (F l I) as [Z|Z]; unfold is_illegal_lanepose; rewrite Z; [reflexivity|apply orb_true_r]. }
  split; apply X.
Qed.

Example C45_ex : exists ms' rep, resolve_collision (ex_sh false) ex_md 1 2 [(1%nat, ex_body (0, 0) (3, 1) 0 0); (2%nat, ex_body (2, 2) (1, 0) 0 0)] (Some (fun _ => [fun q => (true, if Rlt_dec (m02 q) 1 then true else false)])) 0 = (ms', Ok (Some rep)).
Proof.
  destruct (ex_resolve (0, 0) (3, 1) 0 (2, 2) (1, 0) 0 0 0 (Some (fun _ => [fun q => (true, if Rlt_dec (m02 q) 1 then true else false)])) 0) as (ms' & rep & ? & ? & ? & ? & _ & H & _); [cbn; lra|unfold midpoint, velocity_of_P_given_A; vunf; cbn; lra|].
  exists ms', rep. exact H.
Qed.

(** Where the map has no lane, both are declared at fault. *)
Theorem C45_no_lane_refuted : exists ms ms' rep pa pb, resolve_collision (ex_sh false) ex_md 1 2 ms (Some (fun _ => [])) 0 = (ms', Ok (Some rep)) /\
  says rep 1 pa /\ says rep 2 pb /\ pr_at_fault pa = true /\ pr_at_fault pb = true.
Proof.
  exists [(1%nat, ex_body (0, 0) (3, 1) 0 0); (2%nat, ex_body (2, 2) (1, 0) 0 0)].
  destruct (ex_resolve (0, 0) (3, 1) 0 (2, 2) (1, 0) 0 0 0 (Some (fun _ => [])) 0) as (ms' & rep & ? & ? & ? & ? & N & H & _); [cbn; lra|unfold midpoint, velocity_of_P_given_A; vunf; cbn; lra|].
  destruct (C45_fault_pf _ _ _ (ex_sh false) ex_md 1%nat 2%nat _ _ _ _ _ ex_flag_only N H) as (ma & mb & pa & pb & P & _ & _ & Sa & Sb & _ & _ & F).
  exists ms', rep, pa, pb. split; [exact H|]. split; [exact Sa|]. split; [exact Sb|]. destruct (F _ eq_refl) as [F1 F2]. split; [apply F1; intros l []|apply F2; intros l []].
Qed.

(** ** C46 *)

(** Combining: the earlier report's impact, time and pre-collision data, the later
    one's post-collision data, energies added. *)
Theorem C46_combine : forall (Sh Loc : Type) (r1 r2 : report (Sh := Sh) Loc), complete r1 -> complete r2 -> same_players r1 r2 -> rep_time r1 <= rep_time r2 ->
  exists r, combine_collision_reports r1 r2 = Ok r /\ rep_point r = rep_point r1 /\ rep_normal r = rep_normal r1 /\ rep_time r = rep_time r1 /\
    complete r /\ players_of r = players_of r1 /\ forall p p1 p2, says r1 p p1 -> says r2 p p2 -> says r p (joined p1 p2).
Proof.
  intros Sh Loc r1 r2 C1 C2 S T. destruct (combine_ok r1 r2 C1 C2 S T) as (r & E & A & B & C & D & F). exists r. split; [exact E|]. split; [exact A|]. split; [exact B|]. split; [exact C|].
  split; [exact (proj1 (combine_complete r1 r2 r C1 C2 S D F))|]. split; [exact D|exact F].
Qed.

(** The order of the arguments does not matter unless the times are equal. *)
Theorem C46_commutative : forall (Sh Loc : Type) (r1 r2 : report (Sh := Sh) Loc), rep_time r1 <> rep_time r2 -> combine_collision_reports r1 r2 = combine_collision_reports r2 r1.
Proof.
  intros Sh Loc r1 r2 N. unfold combine_collision_reports.
  assert (E : same_keys (rep_players r1) (rep_players r2) = same_keys (rep_players r2) (rep_players r1)) by (unfold same_keys; apply andb_comm).
  rewrite E. clear E. destruct (same_keys (rep_players r2) (rep_players r1)); [|reflexivity]. destruct (Rle_dec (rep_time r1) (rep_time r2)), (Rle_dec (rep_time r2) (rep_time r1)); try reflexivity; exfalso; lra.
Qed.

Theorem C46_different_players : forall (Sh Loc : Type) (r1 r2 : report (Sh := Sh) Loc), ~ same_players r1 r2 -> combine_collision_reports r1 r2 = Err ZValueError.
Proof.
  intros Sh Loc r1 r2 N. unfold combine_collision_reports. destruct (same_keys _ _) eqn:E; [|reflexivity]. exfalso. apply N, same_keys_spec, E.
Qed.

(** Associativity on reports in time order. *)
Theorem C46_associative : forall (Sh Loc : Type) (r1 r2 r3 : report (Sh := Sh) Loc), complete r1 -> complete r2 -> complete r3 -> same_players r1 r2 -> same_players r2 r3 ->
  rep_time r1 <= rep_time r2 <= rep_time r3 ->
  exists r12 r23 r, combine_collision_reports r1 r2 = Ok r12 /\ combine_collision_reports r2 r3 = Ok r23 /\
    combine_collision_reports r12 r3 = Ok r /\ combine_collision_reports r1 r23 = Ok r.
Proof.
  intros Sh Loc r1 r2 r3 C1 C2 C3 S1 S2 [T1 T2].
  destruct (combine_ok r1 r2 C1 C2 S1 T1) as (r12 & E12 & A12 & B12 & D12 & F12 & G12). destruct (combine_complete _ _ _ C1 C2 S1 F12 G12) as [C12 S12].
  destruct (combine_ok r2 r3 C2 C3 S2 T2) as (r23 & E23 & A23 & B23 & D23 & F23 & G23). destruct (combine_complete _ _ _ C2 C3 S2 F23 G23) as [C23 S23].
  assert (Sx : same_players r12 r3) by (apply (same_players_trans _ r1); [exact S12|]; apply (same_players_trans _ r2); assumption).
  assert (Sy : same_players r1 r23) by (apply (same_players_trans _ r2); [assumption|apply same_players_sym; exact S23]).
  destruct (combine_ok r12 r3 C12 C3 Sx ltac:(lra)) as (r & E & A & B & D & F & G). destruct (combine_complete _ _ _ C12 C3 Sx F G) as [C _].
  destruct (combine_ok r1 r23 C1 C23 Sy ltac:(lra)) as (r' & E' & A' & B' & D' & F' & G').
  exists r12, r23, r. split; [exact E12|]. split; [exact E23|]. split; [exact E|]. rewrite E'. f_equal.
  apply report_ext; [exact C|congruence|congruence|congruence|congruence|]. intros p pr Q.
  assert (I1 : In p (players_of r1)). { rewrite <- F12, <- F. apply aget_in_keys. eexists. exact Q. }
  destruct C1 as [_ C1]. destruct C2 as [_ C2]. destruct C3 as [_ C3]. destruct (C1 p I1) as (p1 & Q1). destruct (C2 p (proj1 (S1 p) I1)) as (p2 & Q2). destruct (C3 p (proj1 (S2 p) (proj1 (S1 p) I1))) as (p3 & Q3).
  pose proof (G p _ _ (G12 p p1 p2 Q1 Q2) Q3) as X. unfold says in *. rewrite Q in X. injection X as ->. rewrite joined_assoc. apply G'; [exact Q1|]. apply G23; assumption.
Qed.

Definition ex_pr (w w' d : R) : player_report (Sh := vec) nat := mkPR [] false (0, 0) ((0, 0), w) (Some ((0, 0), w')) (Some d).

Definition ex_rep (t w w' d : R) : report (Sh := vec) nat := mkRep [(1%nat, Some (ex_pr w w' d)); (2%nat, Some (ex_pr w w' d))] (Some (t, t)) None t.

Lemma ex_rep_complete t w w' d : complete (ex_rep t w w' d).
Proof.
  split; [unfold players_of; cbn; repeat constructor; cbn; intuition lia|]. intros p [<-|[<-|[]]]; eexists; reflexivity.
Qed.

Example C46_ex : complete (ex_rep 1 0 1 5) /\ complete (ex_rep 2 1 2 6) /\ complete (ex_rep 3 2 3 7) /\ same_players (ex_rep 1 0 1 5) (ex_rep 2 1 2 6) /\ same_players (ex_rep 2 1 2 6) (ex_rep 3 2 3 7) /\ 1 <= 2 <= 3.
Proof. split; [apply ex_rep_complete|]. split; [apply ex_rep_complete|]. split; [apply ex_rep_complete|]. split; [intro p; reflexivity|]. split; [intro p; reflexivity|lra]. Qed.

(** Out of time order it is not associative: impacts at times 1, 3 and 2; combining
    the first two first loses the post-collision data of the last impact. *)
Theorem C46_unordered_associative_refuted : exists (r1 r2 r3 : report (Sh := vec) nat) r12 r23 r r', complete r1 /\ complete r2 /\ complete r3 /\ same_players r1 r2 /\ same_players r2 r3 /\
  combine_collision_reports r1 r2 = Ok r12 /\ combine_collision_reports r2 r3 = Ok r23 /\
  combine_collision_reports r12 r3 = Ok r /\ combine_collision_reports r1 r23 = Ok r' /\ r <> r'.
Proof.
  exists (ex_rep 1 0 1 0), (ex_rep 3 2 3 0), (ex_rep 2 1 2 0).
  assert (S : forall t w w' d t2 w2 w2' d2, same_players (ex_rep t w w' d) (ex_rep t2 w2 w2' d2)) by (intros; intro p; reflexivity).
  destruct (combine_ok _ _ (ex_rep_complete 1 0 1 0) (ex_rep_complete 3 2 3 0) (S _ _ _ _ _ _ _ _) ltac:(cbn; lra)) as (r12 & E12 & _ & _ & T12 & F12 & G12).
  destruct (combine_ok _ _ (ex_rep_complete 2 1 2 0) (ex_rep_complete 3 2 3 0) (S _ _ _ _ _ _ _ _) ltac:(cbn; lra)) as (r23 & E23 & _ & _ & T23 & F23 & G23).
  destruct (combine_complete _ _ _ (ex_rep_complete 1 0 1 0) (ex_rep_complete 3 2 3 0) (S _ _ _ _ _ _ _ _) F12 G12) as [C12 S12].
  destruct (combine_complete _ _ _ (ex_rep_complete 2 1 2 0) (ex_rep_complete 3 2 3 0) (S _ _ _ _ _ _ _ _) F23 G23) as [C23 S23].
  destruct (combine_ok r12 (ex_rep 2 1 2 0) C12 (ex_rep_complete 2 1 2 0)) as (r & E & _ & _ & _ & F & G); [apply (same_players_trans _ _ _ S12), S|rewrite T12; cbn; lra|].
  destruct (combine_ok (ex_rep 1 0 1 0) r23 (ex_rep_complete 1 0 1 0) C23) as (r' & E' & _ & _ & _ & F' & G'); [apply same_players_sym, (same_players_trans _ _ _ S23), S|rewrite T23; cbn; lra|].
  exists r12, r23, r, r'. split; [apply ex_rep_complete|]. split; [apply ex_rep_complete|]. split; [apply ex_rep_complete|]. split; [apply S|]. split; [apply S|].
  split; [exact E12|]. split; [rewrite C46_commutative_pf by (cbn; lra); exact E23|]. split; [exact E|]. split; [exact E'|]. intros ->.
  pose proof (G 1%nat _ (ex_pr 1 2 0) (G12 1%nat (ex_pr 0 1 0) (ex_pr 2 3 0) eq_refl eq_refl) eq_refl) as X.
  pose proof (G' 1%nat (ex_pr 0 1 0) _ eq_refl (G23 1%nat (ex_pr 1 2 0) (ex_pr 2 3 0) eq_refl eq_refl)) as Y. unfold says in *. rewrite X in Y. injection Y. intros. lra.
Qed.

(** Reducing a whole accident: any number of reports in time order. *)
Theorem C46_accident : forall (Sh Loc : Type) (rs : list (report (Sh := Sh) Loc)) (r0 : report (Sh := Sh) Loc), complete r0 -> (forall r, In r rs -> complete r /\ same_players r0 r) -> time_ordered r0 rs ->
  exists r, fold_left (fun acc x => match acc with Err e => Err e | Ok y => combine_collision_reports y x end) rs (Ok r0) = Ok r /\
    players_of r = players_of r0 /\ rep_point r = rep_point r0 /\ rep_normal r = rep_normal r0 /\ rep_time r = rep_time r0 /\
    forall p pr0, says r0 p pr0 -> exists pr plast, says r p pr /\ says (last rs r0) p plast /\
      pr_velocity pr = pr_velocity pr0 /\ pr_at_fault pr = pr_at_fault pr0 /\ pr_footprint pr = pr_footprint pr0 /\ pr_velocity_after pr = pr_velocity_after plast /\
      exists prs, Forall2 (fun x y => says x p y) rs prs /\ pr_locations pr = pr_locations pr0 ++ flat_map pr_locations prs /\
        pr_energy_delta pr = fold_left (fun acc y => match acc, pr_energy_delta y with Some e1, Some e2 => Some (e1 + e2) | _, _ => None end) prs (pr_energy_delta pr0).
Proof.
  intros Sh Loc rs r0 C0 HC HT. set (f := fun acc x => match acc with Err e => Err e | Ok y => combine_collision_reports y x end).
  assert (TO : forall (rs : list (report (Sh := Sh) Loc)) (a b : report (Sh := Sh) Loc), rep_time a <= rep_time b -> time_ordered b rs -> forall x, In x rs -> rep_time a <= rep_time x).
  { intro l0. induction l0 as [|y l IH]; intros a b Hab Ht x I; [destruct I|]; cbn [time_ordered] in Ht; destruct I as [<-|I]; [lra|]. apply (IH a y); [lra|apply Ht|assumption]. }
  assert (A : forall (rs : list (report (Sh := Sh) Loc)) (acc : report (Sh := Sh) Loc), complete acc -> (forall r, In r rs -> complete r /\ same_players acc r) -> (forall x, In x rs -> rep_time acc <= rep_time x) ->
    exists r, fold_left f rs (Ok acc) = Ok r /\ players_of r = players_of acc /\ rep_point r = rep_point acc /\ rep_normal r = rep_normal acc /\ rep_time r = rep_time acc /\
      forall p pa, says acc p pa -> exists prs pr, says r p pr /\ Forall2 (fun x y => says x p y) rs prs /\ pr = fold_left joined prs pa).
  { intro l0. induction l0 as [|x l IH]; intros acc Ca Hl Ht.
    - exists acc. cbn [fold_left]. split; [reflexivity|]. split; [reflexivity|]. split; [reflexivity|]. split; [reflexivity|]. split; [reflexivity|]. intros p pa Q. exists [], pa. split; [exact Q|]. split; [constructor|reflexivity].
    - destruct (Hl x (or_introl eq_refl)) as [Cx Sx]. destruct (combine_ok acc x Ca Cx Sx (Ht x (or_introl eq_refl))) as (r1 & E1 & A1 & B1 & D1 & F1 & G1).
      destruct (combine_complete _ _ _ Ca Cx Sx F1 G1) as [C1 S1]. cbn [fold_left]. change (f (Ok acc) x) with (combine_collision_reports acc x). rewrite E1.
      destruct (IH r1 C1) as (r & I1 & I2 & I3 & I4 & I5 & I6).
      { intros r I. destruct (Hl r (or_intror I)) as [K1 K2]. split; [exact K1|]. apply (same_players_trans _ acc); assumption. }
      { intros y I. rewrite D1. apply Ht. right. exact I. }
      exists r. split; [exact I1|]. split; [congruence|]. split; [congruence|]. split; [congruence|]. split; [congruence|]. intros p pa Q.
      assert (Ix : In p (players_of x)). { apply Sx. apply aget_in_keys. eexists. exact Q. }
      destruct Cx as [_ Cx]. destruct (Cx p Ix) as (px & Qx). destruct (I6 p _ (G1 p pa px Q Qx)) as (prs & pr & Y1 & Y2 & Y3).
      exists (px :: prs), pr. split; [exact Y1|]. split; [constructor; assumption|exact Y3]. }
  destruct (A rs r0 C0 HC) as (r & E1 & E2 & E3 & E4 & E5 & E6); [intros x I; exact (TO rs r0 r0 ltac:(lra) HT x I)|].
  exists r. split; [exact E1|]. split; [exact E2|]. split; [exact E3|]. split; [exact E4|]. split; [exact E5|]. intros p pr0 Q. destruct (E6 p pr0 Q) as (prs & pr & Y1 & Y2 & ->).
  destruct (joined_fold prs pr0) as (J1 & J2 & J3 & J4 & J5 & J6).
  exists (fold_left joined prs pr0), (last prs pr0). split; [exact Y1|]. split; [exact (says_last p rs prs r0 pr0 Y2 Q)|]. split; [exact J1|]. split; [exact J2|]. split; [exact J3|]. split; [exact J4|].
  exists prs. split; [exact Y2|]. split; [exact J5|exact J6].
Qed.

Example C46_accident_ex : complete (ex_rep 1 0 1 5) /\ (forall r, In r [ex_rep 2 1 2 6; ex_rep 2 2 3 7] -> complete r /\ same_players (ex_rep 1 0 1 5) r) /\ time_ordered (ex_rep 1 0 1 5) [ex_rep 2 1 2 6; ex_rep 2 2 3 7].
Proof.
  split; [apply ex_rep_complete|]. split; [|cbn; lra]. intros r [<-|[<-|[]]]; (split; [apply ex_rep_complete|intro p; reflexivity]).
Qed.

(** The empty report is not neutral: a player without data in it makes the
    combination fail. *)
Theorem C46_empty_not_neutral_refuted : exists (r : report (Sh := vec) nat), complete r /\
  combine_collision_reports r (get_empty (map (fun p => (p, None)) (players_of r)) (rep_time r)) = Err PyAttributeError /\
  combine_collision_reports (get_empty (map (fun p => (p, None)) (players_of r)) (rep_time r)) r = Err PyAttributeError.
Proof.
  exists (ex_rep 1 0 1 0). split; [apply ex_rep_complete|]. unfold combine_collision_reports.
  split; (rewrite (proj2 (same_keys_spec _ _)) by (intro p; reflexivity)); cbn [rep_time get_empty ex_rep]; destruct (Rle_dec 1 1) as [_|X]; try lra; reflexivity.
Qed.
