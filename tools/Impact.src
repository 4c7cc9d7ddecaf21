(** Collisions of models. *)
From Coq Require Import String Reals List Bool Arith Lra Lia Psatz.
From Verif Require Import Base R2 GeoModel DataModel DataSpec DataProofs DataMain LaneModel BodyModel BodySpec BodyMain DynModel DrawModel CollModel CollSpec CollProofs CollMain BuildModel BuildSpec BuildMain ImpactModel ImpactSpec.
Import ListNotations.
Open Scope R_scope.
Local Arguments aget {K V} eqb d k : simpl nomatch.
Local Arguments aset {K V} eqb d k v : simpl nomatch.
(* BODY *)

(** ** C119  Free bodies *)

Lemma seen_flag_only union quad valid middle : flag_only (seen union quad valid middle).
Proof. intro m. repeat split. Qed.

Lemma seen_cog union quad valid middle m c psi : stands m c psi -> cog (seen union quad valid middle) m = c.
Proof.
  intro S. unfold cog, seen. cbn [md_pose]. rewrite (pose_ok _ _ _ S). cbn. symmetry. apply surjective_pairing.
Qed.

Lemma resolved_two union quad valid middle sh a b ms sc t ms' rep n P ma mb ma' mb' m1 i1 e1 m2 i2 e2 va wa vb wb ca pa cb pb :
  a <> b -> resolve_collision sh (seen union quad valid middle) a b ms sc t = (ms', Ok (Some rep)) -> rep_normal rep = Some n -> rep_point rep = Some P ->
  aget Nat.eqb ms a = Some ma -> aget Nat.eqb ms b = Some mb -> aget Nat.eqb ms' a = Some ma' -> aget Nat.eqb ms' b = Some mb' -> weighs ma m1 i1 e1 -> weighs mb m2 i2 e2 -> moves ma va wa -> moves mb vb wb -> stands ma ca pa -> stands mb cb pb ->
  exists va' wa' vb' wb', two_bodies (seen union quad valid middle) sh a b ms sc t ms' rep m1 i1 e1 m2 i2 e2 ca cb n P va vb va' vb' wa wb wa' wb' /\
    ma' = or_else (collide ma) (with_velocity (collide ma) va' wa') /\ mb' = or_else (collide mb) (with_velocity (collide mb) vb' wb').
Proof.
  intros Hab H Hn HP A B A' B' (W1 & W2 & W3 & W4 & W5) (X1 & X2 & X3 & X4 & X5) Ma Mb Sa Sb.
  set (md := seen union quad valid middle) in *.
  assert (F : flag_only md) by apply seen_flag_only.
  assert (S1 : solid md ma m1 i1 e1) by (split; [unfold md, seen, as_body, as_ext; cbn [md_geometry]; rewrite W1, W2, W3; reflexivity|auto]).
  assert (S2 : solid md mb m2 i2 e2) by (split; [unfold md, seen, as_body, as_ext; cbn [md_geometry]; rewrite X1, X2, X3; reflexivity|auto]).
  assert (V1 : md_velocity md ma = (va, wa)) by (unfold md, seen; cbn [md_velocity]; rewrite Ma; reflexivity).
  assert (V2 : md_velocity md mb = (vb, wb)) by (unfold md, seen; cbn [md_velocity]; rewrite Mb; reflexivity).
  destruct (resolve_bodies sh md a b ms sc t ms' rep ma mb m1 i1 e1 m2 i2 e2 n P va wa vb wb F Hab H A B S1 S2 Hn HP V1 V2) as (_ & _ & _ & qa & qb & E1 & E2 & E3 & E4 & E5 & _).
  assert (Ga : aget Nat.eqb (rep_players rep) a = Some (Some qa)) by (rewrite E1, AssocLemmas.aget_cons, Nat.eqb_refl; reflexivity).
  assert (Gb : aget Nat.eqb (rep_players rep) b = Some (Some qb)) by (rewrite E1, !AssocLemmas.aget_cons, (proj2 (Nat.eqb_neq a b) Hab), Nat.eqb_refl; reflexivity).
  destruct (C43_resolved_pf _ _ _ sh md a b ms sc t ms' rep F Hab H) as (xa & xb & ya & yb & Q1 & Q2 & _ & Q3 & Q4 & Q5 & Q6 & _).
  unfold says in Q3, Q4. rewrite Ga in Q3. injection Q3 as <-. rewrite Gb in Q4. injection Q4 as <-. rewrite A in Q1. injection Q1 as <-. rewrite B in Q2. injection Q2 as <-.
  rewrite A' in Q5. rewrite B' in Q6. rewrite E4 in Q5. rewrite E5 in Q6. injection Q5 as ->. injection Q6 as ->.
  eexists _, _, _, _. split; [|split; reflexivity].
  split; [exact Hab|]. split; [exact H|]. split.
  { exists ma, mb. repeat (split; [eassumption|]). split; [apply seen_cog with pa, Sa|]. split; [apply seen_cog with pb, Sb|]. split; assumption. }
  split; [exact Hn|]. split; [exact HP|]. split; [exists qa; split; assumption|]. split; [exists qb; split; assumption|]. split; [exists qa; split; assumption|exists qb; split; assumption].
Qed.

Lemma crash_two union quad valid middle sh a b ms sc t ms' rep n P ma mb ma' mb' m1 i1 e1 m2 i2 e2 va wa vb wb ca pa cb pb :
  crash union quad valid middle sh a b ms sc t ms' rep n P ma mb ma' mb' -> weighs ma m1 i1 e1 -> weighs mb m2 i2 e2 -> moves ma va wa -> moves mb vb wb -> stands ma ca pa -> stands mb cb pb ->
  exists va' wa' vb' wb', two_bodies (seen union quad valid middle) sh a b ms sc t ms' rep m1 i1 e1 m2 i2 e2 ca cb n P va vb va' vb' wa wb wa' wb' /\
    ma' = or_else (collide ma) (with_velocity (collide ma) va' wa') /\ mb' = or_else (collide mb) (with_velocity (collide mb) vb' wb').
Proof. intros (Hab & H & Hn & HP & A & B & A' & B' & _ & _). apply resolved_two; assumption. Qed.

Lemma free_written m v w : honest (mo_kind m) -> instance_of (state_class (mo_kind m)) (mo_state m) -> exists m', or_else (collide m) (with_velocity (collide m) v w) = m' /\ moves m' v w /\ stays m m' /\ instance_of (state_class (mo_kind m)) (mo_state m').
Proof.
  intros K I. unfold with_velocity. cbn [collide mo_kind mo_state].
  destruct (C55_set_get_pf (mo_kind m) (fst (wheelbase_lr (ge_body (mo_geo m)))) (snd (wheelbase_lr (ge_body (mo_geo m)))) (mo_state m) v w false K I) as (st & E & I' & G & O).
  rewrite E. cbn [bind or_else]. eexists. split; [reflexivity|]. split; [exact G|]. split; [|exact I']. unfold stays, set_state. cbn. repeat (split; [reflexivity|]). intros f N. apply O. cbn in N |- *. tauto.
Qed.

Lemma stays_stands m m' c psi : stays m m' -> stands m c psi -> stands m' c psi.
Proof. intros (_ & _ & _ & _ & _ & E) (A & B & C). unfold stands, has in *. rewrite !E by (cbn; intuition discriminate). auto. Qed.

(** When two spacecraft, rockets, spaceships or obstacles collide, the velocities that the
    models have afterwards obey the law of restitution at the point of impact and
    conserve momentum and angular momentum, and no energy is gained; nothing else of
    the models changes. *)
Theorem C119_free : forall union quad valid middle sh a b ms sc t ms' rep n P ma mb ma' mb' m1 i1 e1 m2 i2 e2 va wa vb wb ca pa cb pb,
  crash union quad valid middle sh a b ms sc t ms' rep n P ma mb ma' mb' -> weighs ma m1 i1 e1 -> weighs mb m2 i2 e2 -> moves ma va wa -> moves mb vb wb -> stands ma ca pa -> stands mb cb pb ->
  honest (mo_kind ma) -> honest (mo_kind mb) ->
  exists va' wa' vb' wb', moves ma' va' wa' /\ moves mb' vb' wb' /\ stays ma ma' /\ stays mb mb' /\
    restitution (Rmin e1 e2) n P ca va va' cb vb vb' wa wa' wb wb' /\ same_momentum m1 m2 va va' vb vb' /\ same_spin m1 i1 m2 i2 ca va va' cb vb vb' wa wa' wb wb' /\
    (0 <= e1 <= 1 -> 0 <= e2 <= 1 -> no_more_energy m1 i1 m2 i2 va va' vb vb' wa wa' wb wb').
Proof.
  intros union quad valid middle sh a b ms sc t ms' rep n P ma mb ma' mb' m1 i1 e1 m2 i2 e2 va wa vb wb ca pa cb pb C Wa Wb Ma Mb Sa Sb Ha Hb.
  destruct (crash_two _ _ _ _ _ _ _ _ _ _ _ _ _ _ _ _ _ _ _ _ _ _ _ _ _ _ _ _ _ _ _ _ C Wa Wb Ma Mb Sa Sb) as (va' & wa' & vb' & wb' & T & -> & ->).
  destruct C as (_ & _ & _ & _ & _ & _ & _ & _ & (Ia & _) & (Ib & _)). pose proof (seen_flag_only union quad valid middle) as F.
  destruct (free_written ma va' wa' Ha Ia) as (na & -> & N1 & N2 & _). destruct (free_written mb vb' wb' Hb Ib) as (nb & -> & N3 & N4 & _).
  exists va', wa', vb', wb'. repeat (split; [assumption|]). split; [exact (C40_restitution_pf _ _ _ _ _ _ _ _ _ _ _ _ _ _ _ _ _ _ _ _ _ _ _ _ _ _ _ _ _ _ F T)|].
  destruct (C41_momentum_pf _ _ _ _ _ _ _ _ _ _ _ _ _ _ _ _ _ _ _ _ _ _ _ _ _ _ _ _ _ _ F T) as (Q1 & Q2 & _). split; [exact Q1|]. split; [exact Q2|].
  intros R1 R2. apply (C42_energy_pf _ _ _ _ _ _ _ _ _ _ _ _ _ _ _ _ _ _ _ _ _ _ _ _ _ _ _ _ _ _ F T R1 R2).
Qed.

Lemma stays_pose m m' : stays m m' -> get_pose m' = get_pose m.
Proof. intros (_ & _ & _ & _ & _ & E). unfold get_pose, getnum. rewrite !E by (cbn; intuition discriminate). reflexivity. Qed.

Lemma stays_footprint union quad valid m m' : stays m m' -> get_footprint union quad valid m' = get_footprint union quad valid m.
Proof. intro S. pose proof (stays_pose _ _ S) as P. destruct S as (K & G & _ & SH & _). unfold get_footprint. rewrite P, K, G, SH. reflexivity. Qed.

(** Then they are separating: the same collision is not resolved again. *)
Theorem C119_once : forall union quad valid middle sh a b ms sc t ms' rep n P ma mb ma' mb' m1 i1 e1 m2 i2 e2 va wa vb wb ca pa cb pb,
  crash union quad valid middle sh a b ms sc t ms' rep n P ma mb ma' mb' -> weighs ma m1 i1 e1 -> weighs mb m2 i2 e2 -> moves ma va wa -> moves mb vb wb -> stands ma ca pa -> stands mb cb pb ->
  honest (mo_kind ma) -> honest (mo_kind mb) -> 0 < e1 -> 0 < e2 -> vdot (vsub (contact va wa ca P) (contact vb wb cb P)) n <> 0 ->
  forall sc' t', resolve_collision sh (seen union quad valid middle) a b ms' sc' t' = (ms', Ok None).
Proof.
  intros union quad valid middle sh a b ms sc t ms' rep n P ma mb ma' mb' m1 i1 e1 m2 i2 e2 va wa vb wb ca pa cb pb C Wa Wb Ma Mb Sa Sb Ha Hb E1 E2 AP sc' t'.
  destruct (C119_free_pf _ _ _ _ _ _ _ _ _ _ _ _ _ _ _ _ _ _ _ _ _ _ _ _ _ _ _ _ _ _ _ _ C Wa Wb Ma Mb Sa Sb Ha Hb) as (va' & wa' & vb' & wb' & Ma' & Mb' & Ta & Tb & RE & _).
  destruct (crash_two _ _ _ _ _ _ _ _ _ _ _ _ _ _ _ _ _ _ _ _ _ _ _ _ _ _ _ _ _ _ _ _ C Wa Wb Ma Mb Sa Sb) as (? & ? & ? & ? & T & _).
  pose proof (seen_flag_only union quad valid middle) as F. destruct (two_bodies_inv _ _ _ _ _ _ _ _ _ _ _ _ _ _ _ _ _ _ _ _ _ _ _ _ _ _ _ F T) as (_ & _ & _ & _ & _ & _ & V & _). rewrite <- !contact_P in V.
  destruct C as (Hab & H & Hn & HP & A & B & A' & B' & _). set (md := seen union quad valid middle) in *.
  destruct (resolve_inv sh md a b ms sc t ms' rep F Hab H) as (xa & xb & ? & ? & ? & ? & P' & nrm & ? & ? & ? & ? & I1 & I2 & _ & _ & I5 & I6 & I7 & _).
  assert (xa = ma) as -> by congruence. assert (xb = mb) as -> by congruence. assert (P' = P) as -> by congruence. assert (nrm = Some n) as -> by congruence.
  assert (FA : md_footprint md ma' = md_footprint md ma) by (unfold md, seen; cbn [md_footprint]; rewrite (stays_footprint _ _ _ _ _ Ta); reflexivity).
  assert (FB : md_footprint md mb' = md_footprint md mb) by (unfold md, seen; cbn [md_footprint]; rewrite (stays_footprint _ _ _ _ _ Tb); reflexivity).
  rewrite <- FA, <- FB in I5.
  assert (V1 : md_velocity md ma' = (va', wa')) by (unfold md, seen; cbn [md_velocity]; rewrite Ma'; reflexivity).
  assert (V2 : md_velocity md mb' = (vb', wb')) by (unfold md, seen; cbn [md_velocity]; rewrite Mb'; reflexivity).
  destruct (C43_separating_pf _ _ _ sh md a b ms' sc' t' ma' mb' n P va' wa' vb' wb' A' B' V1 V2 I5) as [S _]. apply S.
  unfold md. rewrite (seen_cog _ _ _ _ _ _ _ (stays_stands _ _ _ _ Ta Sa)), (seen_cog _ _ _ _ _ _ _ (stays_stands _ _ _ _ Tb Sb)).
  unfold restitution in RE. rewrite RE. assert (0 < Rmin e1 e2) by (apply Rmin_glb_lt; assumption). nra.
Qed.

Lemma env_one union quad valid middle sh ew env a m bs gb t m' rep n P m1 i1 e1 va wa ca pa :
  crash_env union quad valid middle sh ew env a m bs gb t m' rep n P -> weighs m m1 i1 e1 -> moves m va wa -> stands m ca pa ->
  exists va' wa', against_wall (seen union quad valid middle) sh ew env a m bs (as_body gb) t m' rep m1 i1 e1 ca n P va va' wa wa' /\ m' = or_else (collide m) (with_velocity (collide m) va' wa').
Proof.
  intros (Hae & H & G1 & G2 & Hn & HP & U) (W1 & W2 & W3 & W4 & W5) M S. set (md := seen union quad valid middle) in *.
  assert (F : flag_only md) by apply seen_flag_only.
  assert (V1 : md_velocity md m = (va, wa)) by (unfold md, seen; cbn [md_velocity]; rewrite M; reflexivity).
  destruct (resolve_env_inv sh md ew env a m bs (as_body gb) t m' rep F H) as (va0 & wa0 & P' & nrm & la & pb & I1 & _ & I2 & I3 & _ & _ & _ & J). cbv zeta in J.
  assert (P' = P) as -> by congruence. assert (nrm = Some n) as -> by congruence. rewrite V1 in I1. injection I1 as <- <-.
  destruct J as (_ & aa & J1 & J2 & _ & J3). specialize (J3 n eq_refl). cbv zeta in J3. subst aa. eexists _, _.
  split.
  - split; [exact Hae|]. split; [exact H|]. split; [split; [unfold md, seen, as_body, as_ext; cbn [md_geometry]; rewrite W1, W2, W3; reflexivity|auto]|].
    split; [unfold as_body, as_ext; cbn; rewrite G1; reflexivity|]. split; [unfold as_body, as_ext; cbn; rewrite G2; reflexivity|]. split; [apply seen_cog with pa, S|]. split; [exact V1|]. split; [exact Hn|]. split; [exact HP|].
    split; eexists; (split; [rewrite J1, AssocLemmas.aget_cons, Nat.eqb_refl; reflexivity|]); reflexivity.
  - exact J2.
Qed.

(** Against a static obstacle a free body bounces off with the smaller restitution, and
    loses energy. *)
Theorem C119_wall : forall union quad valid middle sh ew env a m bs gb t m' rep n P m1 i1 e1 va wa ca pa,
  crash_env union quad valid middle sh ew env a m bs gb t m' rep n P -> weighs m m1 i1 e1 -> moves m va wa -> stands m ca pa -> honest (mo_kind m) ->
  exists va' wa', moves m' va' wa' /\ stays m m' /\ vdot (contact va' wa' ca P) n = - Rmin e1 (ge_e gb) * vdot (contact va wa ca P) n /\
    (0 <= e1 <= 1 -> 0 <= ge_e gb <= 1 -> energy m1 i1 va' wa' <= energy m1 i1 va wa).
Proof.
  intros union quad valid middle sh ew env a m bs gb t m' rep n P m1 i1 e1 va wa ca pa C W M S K.
  destruct (env_one _ _ _ _ _ _ _ _ _ _ _ _ _ _ _ _ _ _ _ _ _ _ _ C W M S) as (va' & wa' & T & ->). pose proof (seen_flag_only union quad valid middle) as F.
  destruct C as (_ & _ & _ & _ & _ & _ & I & _). destruct (free_written m va' wa' K I) as (m' & -> & N1 & N2 & _). exists va', wa'. split; [exact N1|]. split; [exact N2|].
  split; [exact (C40_restitution_environment_pf _ _ _ _ _ _ _ _ _ _ _ _ _ _ _ _ _ _ _ _ _ _ _ _ F T)|]. intros R1 R2. apply (C42_energy_environment_pf _ _ _ _ _ _ _ _ _ _ _ _ _ _ _ _ _ _ _ _ _ _ _ _ F T R1 R2).
Qed.

(** ** C120  Vehicles *)

Lemma state_num m f : instance_of (state_class (mo_kind m)) (mo_state m) -> In f (c_fields (state_class (mo_kind m))) -> f <> "lights"%string -> exists r, has (mo_state m) f r.
Proof.
  intros (_ & F & V) I N. rewrite <- F in I. unfold has, getattr.
  assert (A : exists v, aget String.eqb (o_dict (mo_state m)) f = Some v /\ In (f, v) (o_dict (mo_state m))).
  { clear F V. induction (o_dict (mo_state m)) as [|[k v] l IH]; [destruct I|]. cbn [aget]. destruct (string_dec k f) as [->|Q].
    - exists v. rewrite AssocLemmas.aget_cons, String.eqb_refl. split; [reflexivity|left; reflexivity].
    - destruct I as [I|I]; [cbn in I; congruence|]. destruct (IH I) as (v' & A & B). exists v'. rewrite AssocLemmas.aget_cons. replace (String.eqb k f) with false by (symmetry; apply String.eqb_neq, Q). split; [exact A|right; exact B]. }
  destruct A as (v & -> & B). destruct (proj2 (V _ _ B) N) as [r ->]. exists r. reflexivity.
Qed.

Lemma vehicle_written m v w c psi d : mo_kind m = KVehicle -> instance_of (state_class (mo_kind m)) (mo_state m) -> stands m c psi -> has (mo_state m) "delta" d ->
  let L := fst (wheelbase_lr (ge_body (mo_geo m))) in let lr := snd (wheelbase_lr (ge_body (mo_geo m))) in let u := forward psi v in
  exists m', or_else (collide m) (with_velocity (collide m) v w) = m' /\ moves m' (in_world (0, 0) psi (u, u * tan d / L * lr)) (u * tan d / L) /\ stays m m' /\ instance_of (state_class (mo_kind m)) (mo_state m').
Proof.
  intros K I (X & Y & P) D. cbv zeta. unfold with_velocity. cbn [collide mo_kind mo_state]. rewrite K in *. destruct m as [k st xt g pr sh ty co]. cbn [mo_kind mo_state mo_geo] in *. subst k.
  cbn [state_class] in I. inst st I. unfold has, getattr in *. cbn in X, Y, P, D. injection X as X. injection Y as Y. injection P as P. injection D as D. subst.
  cbn [set_velocity to_model_frame getnum getattr o_dict mk combine map c_fields cVehicleState f5 aget String.eqb Ascii.eqb Bool.eqb bind or_else]. eexists. split; [reflexivity|]. split; [|split].
  - unfold moves, velocity, set_state, collide. cbn [mo_kind mo_geo mo_state get_velocity]. unfold get_vehicle_velocity, getnum, getattr, setattr, mk. cbn. f_equal. unfold forward, in_world, rot. cbn [fst snd]. rewrite cos_neg, sin_neg. repeat (apply pair_equal_spec; split); unfold Rdiv; ring.
  - unfold stays, set_state. cbn [mo_kind mo_geo mo_params mo_shape mo_collided mo_state collide]. repeat (split; [reflexivity|]). intros f N. apply DataProofs.getattr_other. intros ->. apply N. left. reflexivity.
  - cbn [set_state mo_state mo_kind state_class]. isinst.
Qed.

Lemma vehicle_rolls m v w c psi d : mo_kind m = KVehicle -> instance_of (state_class (mo_kind m)) (mo_state m) -> stands m c psi -> has (mo_state m) "delta" d ->
  rolls m (or_else (collide m) (with_velocity (collide m) v w)) psi d v.
Proof. intros K I S D. destruct (vehicle_written m v w c psi d K I S D) as (m' & -> & A & B & _). split; [exact B|]. revert A. unfold between_axles, to_rear_axle, wheelbase_lr. destruct (ge_body (mo_geo m)); intro A; exact A. Qed.

(** After a collision a vehicle (bicycle model) is where it was, with the same steering,
    and rolls with the part along its heading of the velocity that is reported for it. *)
Theorem C120_vehicle : forall union quad valid middle sh a b ms sc t ms' rep n P ma mb ma' mb' m1 i1 e1 m2 i2 e2 va wa vb wb ca pa cb pb,
  crash union quad valid middle sh a b ms sc t ms' rep n P ma mb ma' mb' -> weighs ma m1 i1 e1 -> weighs mb m2 i2 e2 -> moves ma va wa -> moves mb vb wb -> stands ma ca pa -> stands mb cb pb ->
  exists va' wa' vb' wb', afterwards rep a va' wa' /\ afterwards rep b vb' wb' /\
    (mo_kind ma = KVehicle -> forall d, has (mo_state ma) "delta" d -> rolls ma ma' pa d va') /\ (mo_kind mb = KVehicle -> forall d, has (mo_state mb) "delta" d -> rolls mb mb' pb d vb').
Proof.
  intros union quad valid middle sh a b ms sc t ms' rep n P ma mb ma' mb' m1 i1 e1 m2 i2 e2 va wa vb wb ca pa cb pb C Wa Wb Ma Mb Sa Sb.
  destruct (crash_two _ _ _ _ _ _ _ _ _ _ _ _ _ _ _ _ _ _ _ _ _ _ _ _ _ _ _ _ _ _ _ _ C Wa Wb Ma Mb Sa Sb) as (va' & wa' & vb' & wb' & T & -> & ->).
  destruct C as (_ & _ & _ & _ & _ & _ & _ & _ & (Ia & _) & (Ib & _)). exists va', wa', vb', wb'. destruct T as (_ & _ & _ & _ & _ & _ & _ & A1 & A2). split; [exact A1|]. split; [exact A2|].
  split; intros K d D; eapply vehicle_rolls; eassumption.
Qed.

Lemma straight_written m v w c psi mass iz : straight m -> instance_of (state_class (mo_kind m)) (mo_state m) -> stands m c psi -> 0 <= mass -> 0 <= iz -> exists m' v' w',
  or_else (collide m) (with_velocity (collide m) v w) = m' /\ moves m' v' w' /\ energy mass iz v' w' <= energy mass iz v w.
Proof.
  intros [K D] I S M Z. destruct (vehicle_written m v w c psi 0 K I S D) as (m' & E & A & _). rewrite tan_0 in A. eexists m', _, _. split; [exact E|]. split; [exact A|].
  unfold energy, in_world, rot, vdot. cbn [fst snd]. unfold forward. pose proof (sin2_cos2 psi) as Q. unfold Rsqr in Q. set (cc := cos psi) in *. set (ss := sin psi) in *. destruct v as [x y]. cbn [fst snd]. unfold Rdiv. rewrite !Rmult_0_r, !Rmult_0_l, !Rplus_0_l.
  set (u := cc * x + ss * y). assert (U : u * u <= x * x + y * y). { assert (u * u + (ss * x - cc * y) * (ss * x - cc * y) = (ss * ss + cc * cc) * (x * x + y * y)) by (unfold u; ring). rewrite Q in H. pose proof (Rle_0_sqr (ss * x - cc * y)) as G. unfold Rsqr in G. lra. }
  assert (E1 : (u * cc - 0) * (u * cc - 0) + (u * ss + 0) * (u * ss + 0) = (ss * ss + cc * cc) * (u * u)) by ring. rewrite Q in E1.
  pose proof (Rmult_le_compat_l mass _ _ M U). assert (0 <= iz * (w * w)) by (apply Rmult_le_pos; [exact Z|nra]). nra.
Qed.

(** With free bodies and vehicles with straight wheels no energy is gained. *)
Theorem C120_energy_partial : forall union quad valid middle sh a b ms sc t ms' rep n P ma mb ma' mb' m1 i1 e1 m2 i2 e2 va wa vb wb ca pa cb pb,
  crash union quad valid middle sh a b ms sc t ms' rep n P ma mb ma' mb' -> weighs ma m1 i1 e1 -> weighs mb m2 i2 e2 -> moves ma va wa -> moves mb vb wb -> stands ma ca pa -> stands mb cb pb ->
  honest (mo_kind ma) \/ straight ma -> honest (mo_kind mb) \/ straight mb -> 0 <= e1 <= 1 -> 0 <= e2 <= 1 ->
  exists va' wa' vb' wb', moves ma' va' wa' /\ moves mb' vb' wb' /\ no_more_energy m1 i1 m2 i2 va va' vb vb' wa wa' wb wb'.
Proof.
  intros union quad valid middle sh a b ms sc t ms' rep n P ma mb ma' mb' m1 i1 e1 m2 i2 e2 va wa vb wb ca pa cb pb C Wa Wb Ma Mb Sa Sb Ha Hb E1 E2.
  destruct (crash_two _ _ _ _ _ _ _ _ _ _ _ _ _ _ _ _ _ _ _ _ _ _ _ _ _ _ _ _ _ _ _ _ C Wa Wb Ma Mb Sa Sb) as (va' & wa' & vb' & wb' & T & -> & ->).
  destruct C as (_ & _ & _ & _ & _ & _ & _ & _ & (Ia & _) & (Ib & _)). pose proof (seen_flag_only union quad valid middle) as F.
  pose proof (C42_energy_pf _ _ _ _ _ _ _ _ _ _ _ _ _ _ _ _ _ _ _ _ _ _ _ _ _ _ _ _ _ _ F T E1 E2) as [EN _].
  assert (W : forall m v w c psi mass iz e, weighs m mass iz e -> stands m c psi -> instance_of (state_class (mo_kind m)) (mo_state m) -> honest (mo_kind m) \/ straight m ->
    exists m' v' w', or_else (collide m) (with_velocity (collide m) v w) = m' /\ moves m' v' w' /\ energy mass iz v' w' <= energy mass iz v w).
  { intros m v w c psi mass iz e (_ & _ & _ & P1 & P2) S I [H|H]; [|eapply straight_written; try eassumption; lra]. destruct (free_written m v w H I) as (m' & Q & N & _). exists m', v, w. split; [exact Q|]. split; [exact N|lra]. }
  destruct (W ma va' wa' _ _ _ _ _ Wa Sa Ia Ha) as (na & ua & oa & -> & N1 & L1). destruct (W mb vb' wb' _ _ _ _ _ Wb Sb Ib Hb) as (nb & ub & ob & -> & N2 & L2).
  exists ua, oa, ub, ob. split; [exact N1|]. split; [exact N2|]. unfold no_more_energy. lra.
Qed.

(** Against a static obstacle. *)
Theorem C120_wall : forall union quad valid middle sh ew env a m bs gb t m' rep n P m1 i1 e1 va wa ca pa d,
  crash_env union quad valid middle sh ew env a m bs gb t m' rep n P -> weighs m m1 i1 e1 -> moves m va wa -> stands m ca pa -> mo_kind m = KVehicle -> has (mo_state m) "delta" d ->
  exists va' wa', afterwards rep a va' wa' /\ rolls m m' pa d va'.
Proof.
  intros union quad valid middle sh ew env a m bs gb t m' rep n P m1 i1 e1 va wa ca pa d C W M S K D.
  destruct (env_one _ _ _ _ _ _ _ _ _ _ _ _ _ _ _ _ _ _ _ _ _ _ _ C W M S) as (va' & wa' & T & ->). destruct C as (_ & _ & _ & _ & _ & _ & I & _).
  exists va', wa'. destruct T as (_ & _ & _ & _ & _ & _ & _ & _ & _ & _ & A). split; [exact A|eapply vehicle_rolls; eassumption].
Qed.

(** Hitting it head-on with straight wheels, a vehicle rolls back with the smaller
    restitution times its speed. *)
Theorem C120_head_on_partial : forall union quad valid middle sh ew env a m bs gb t m' rep n P m1 i1 e1 ca pa u s,
  crash_env union quad valid middle sh ew env a m bs gb t m' rep n P -> weighs m m1 i1 e1 -> stands m ca pa -> straight m -> has (mo_state m) "vx" u ->
  n = vscale s (cos pa, sin pa) -> vcross (vsub P ca) n = 0 -> stays m m' /\ has (mo_state m') "vx" (- Rmin e1 (ge_e gb) * u).
Proof.
  intros union quad valid middle sh ew env a m bs gb t m' rep n P m1 i1 e1 ca pa u s C W S ST U HN X. pose proof ST as [K D].
  assert (I : instance_of (state_class (mo_kind m)) (mo_state m)) by (destruct C as (_ & _ & _ & _ & _ & _ & I & _); exact I).
  assert (M : moves m (in_world (0, 0) pa (u, 0)) 0).
  { unfold moves, velocity. rewrite K. cbn [get_velocity]. unfold get_vehicle_velocity, getnum. unfold has in D, U. destruct S as (_ & _ & S). unfold has in S. rewrite U, D, S. cbn [DataModel.bind]. rewrite tan_0. f_equal. unfold in_world, rot. cbn [fst snd]. unfold Rdiv. rewrite !Rmult_0_r, !Rmult_0_l. repeat (apply pair_equal_spec; split); ring. }
  destruct (env_one _ _ _ _ _ _ _ _ _ _ _ _ _ _ _ _ _ _ _ _ _ _ _ C W M S) as (va' & wa' & T & E). pose proof (seen_flag_only union quad valid middle) as F.
  destruct (against_wall_inv _ _ _ _ _ _ _ _ _ _ _ _ _ _ _ _ _ _ _ _ _ F T) as (Q1 & Q2 & N & KP & _ & V & _). rewrite E.
  destruct (vehicle_rolls m va' wa' ca pa 0 K I S D) as [G1 _]. split; [exact G1|].
  assert (G2 : has (mo_state (or_else (collide m) (with_velocity (collide m) va' wa'))) "vx" (forward pa va')).
  { destruct S as (_ & _ & S). unfold has in S. unfold with_velocity. cbn [collide mo_kind mo_state]. rewrite K. unfold set_velocity, to_model_frame, getnum. rewrite S. cbn [DataModel.bind bind or_else]. unfold set_state, has. cbn [mo_state]. unfold getattr, setattr. cbn [o_dict]. rewrite AssocLemmas.aget_aset_same by (intros; apply String.eqb_eq). do 2 f_equal. unfold rot, forward. cbn [fst snd]. rewrite cos_neg, sin_neg. ring. }
  replace (- Rmin e1 (ge_e gb) * u) with (forward pa va'); [exact G2|]. rewrite V, X. pose proof (sin2_cos2 pa) as SC. unfold Rsqr in SC.
  assert (S2 : s * s = 1). { rewrite HN in N. unfold vdot, vscale in N. cbn [fst snd] in N. replace (s * cos pa * (s * cos pa) + s * sin pa * (s * sin pa)) with (s * s * (sin pa * sin pa + cos pa * cos pa)) in N by ring. rewrite SC in N. lra. }
  rewrite HN. unfold velocity_of_P_given_A, forward, in_world, rot, vadd, vscale, rot90, vdot. cbn [fst snd]. unfold as_body. cbn [CollModel.g_e]. set (e := Rmin e1 (ge_e gb)). set (cc := cos pa) in *. set (ss := sin pa) in *.
  replace (- (1 + e) * ((0 + u * cc - 0 * ss + 0 * - snd (vsub P ca)) * (s * cc) + (0 + u * ss + 0 * cc + 0 * fst (vsub P ca)) * (s * ss)) / (/ m1 + 0 * 0 * / i1) * / m1) with (- (1 + e) * (u * s * (ss * ss + cc * cc))) by (field; lra).
  rewrite SC. transitivity (u * (ss * ss + cc * cc) - (1 + e) * (u * (s * s)) * (ss * ss + cc * cc)); [ring|]. rewrite SC, S2. ring.
Qed.

(** *** Collisions that happen *)

(** Two outlines that cross at the points [P + h n'] and [P - h n'], where [n'] is [n] turned
    to the left; the first one is centred at the origin. *)
Definition meets (P n : vec) (h : R) : shapely (list vec) :=
  mkShp (fun _ _ => false) (fun _ _ => false) (fun _ _ => true) (fun _ => (0, 0)) (fun _ _ => ILine [vadd P (vscale h (rot90 n)); vsub P (vscale h (rot90 n))]) (fun _ _ => false) (fun _ => true) (fun s => Ok s).

Lemma meets_geometry P n h x y : vdot n n = 1 -> 0 < h -> 0 <= vdot P n -> compute_impact_geometry (meets P n h) x y = Ok (Some n, P).
Proof.
  intros N H O. destruct n as [n1 n2], P as [p1 p2]. unfold compute_impact_geometry, meets, find_intersection_points. cbn [touches contains intersection contains_pt filter negb orb length Nat.eqb CollModel.centroid].
  unfold midpoint, vadd, vsub, vscale, rot90, vdot in *. cbn [fst snd] in *.
  assert (NZ : normalize (- (p2 - h * n1 - (p2 + h * n1)), p1 - h * - n2 - (p1 + h * - n2)) = Some (n1, n2)).
  { unfold normalize, vnorm, vdot, vscale. cbn [fst snd]. replace (- (p2 - h * n1 - (p2 + h * n1))) with (2 * h * n1) by ring. replace (p1 - h * - n2 - (p1 + h * - n2)) with (2 * h * n2) by ring.
    replace (2 * h * n1 * (2 * h * n1) + 2 * h * n2 * (2 * h * n2)) with (2 * h * (2 * h) * (n1 * n1 + n2 * n2)) by ring. rewrite N, Rmult_1_r, sqrt_square by lra. destruct (Req_EM_T (2 * h) 0); [lra|]. do 2 f_equal; field; lra. }
  rewrite NZ. destruct (Rlt_dec _ 0) as [L|_]; [exfalso|do 3 f_equal; field]. cbn in L. lra.
Qed.

(** The union of shapes as a list of points, and no shape invalid. *)
Definition joined_points : list (list vec) -> list vec := @concat vec.
Definition any_shape : list vec -> bool := fun _ => true.

Lemma happens P n h ma mb va wa vb wb ca pa cb pb la lb xa xb : vdot n n = 1 -> 0 < h -> 0 <= vdot P n ->
  instance_of (state_class (mo_kind ma)) (mo_state ma) -> instance_of (state_class (mo_kind mb)) (mo_state mb) -> moves ma va wa -> moves mb vb wb -> stands ma ca pa -> stands mb cb pb ->
  get_mesh joined_points 16 any_shape mean_centroid ma = Ok (xa :: la) -> get_mesh joined_points 16 any_shape mean_centroid mb = Ok (xb :: lb) -> 0 <= vdot (vsub (contact va wa ca P) (contact vb wb cb P)) n ->
  exists ms' rep ma' mb', crash joined_points 16 any_shape mean_centroid (meets P n h) 1 2 [(1%nat, ma); (2%nat, mb)] None 0 ms' rep n P ma mb ma' mb'.
Proof.
  intros N H O Ia Ib Ma Mb Sa Sb La Lb A. set (md := seen joined_points 16 any_shape mean_centroid). pose proof (seen_flag_only joined_points 16 any_shape mean_centroid : flag_only md) as F. set (ms := [(1%nat, ma); (2%nat, mb)]).
  assert (V1 : md_velocity md ma = (va, wa)) by (unfold md, seen; cbn [md_velocity]; rewrite Ma; reflexivity).
  assert (V2 : md_velocity md mb = (vb, wb)) by (unfold md, seen; cbn [md_velocity]; rewrite Mb; reflexivity).
  assert (LO : forall m y x l, get_mesh joined_points 16 any_shape mean_centroid m = Ok (x :: l) -> exists q, impact_locations_from_polygons (meets P n h) md m y = Ok q).
  { intros m y x l E. unfold impact_locations_from_polygons, md, seen. cbn [md_mesh]. rewrite E. cbn [or_else filter meets intersects]. eexists. reflexivity. }
  destruct (LO ma (md_footprint md mb) _ _ La) as [q1 L1]. destruct (LO mb (md_footprint md ma) _ _ Lb) as [q2 L2].
  rewrite !contact_P in A. rewrite <- (seen_cog joined_points 16 any_shape mean_centroid _ _ _ Sa), <- (seen_cog joined_points 16 any_shape mean_centroid _ _ _ Sb) in A. fold md in A.
  assert (N12 : 1%nat <> 2%nat) by discriminate.
  destruct (resolve_fwd (meets P n h) md 1 2 ms None 0 ma mb n P q1 q2 va wa vb wb F N12 eq_refl eq_refl (meets_geometry P n h _ _ N H O) V1 V2 A L1 L2) as (ms' & rep & E & RN & RP).
  destruct (C43_resolved_pf _ _ _ _ md 1%nat 2%nat ms None 0 ms' rep F N12 E) as (xa' & xb' & ya & yb & Q1 & Q2 & _ & _ & _ & Q5 & Q6 & _).
  eexists ms', rep, _, _. split; [exact N12|]. split; [exact E|]. split; [exact RN|]. split; [exact RP|]. split; [reflexivity|]. split; [reflexivity|]. split; [exact Q5|]. split; [exact Q6|].
  assert (FP : forall m x l, get_mesh joined_points 16 any_shape mean_centroid m = Ok (x :: l) -> exists f, get_footprint joined_points 16 any_shape m = Ok f).
  { intros m x l Q. unfold get_mesh in Q. destruct (get_footprint joined_points 16 any_shape m) as [f|]; [exists f; reflexivity|discriminate]. }
  split; (split; [assumption|]); (split; [eapply FP; eassumption|]); (split; [eexists; eassumption|]); eexists _, _; eassumption.
Qed.

Lemma happens_wall P n h m va wa ca pa la xa gb : vdot n n = 1 -> 0 < h -> 0 <= vdot P n ->
  instance_of (state_class (mo_kind m)) (mo_state m) -> moves m va wa -> stands m ca pa -> get_mesh joined_points 16 any_shape mean_centroid m = Ok (xa :: la) -> ge_m gb = None -> ge_Iz gb = None ->
  0 <= vdot (contact va wa ca P) n -> exists m' rep, crash_env joined_points 16 any_shape mean_centroid (meets P n h) "everywhere" 0 1 m [] gb 0 m' rep n P.
Proof.
  intros N H O I M S L G1 G2 A. set (md := seen joined_points 16 any_shape mean_centroid). pose proof (seen_flag_only joined_points 16 any_shape mean_centroid : flag_only md) as F.
  assert (V1 : md_velocity md m = (va, wa)) by (unfold md, seen; cbn [md_velocity]; rewrite M; reflexivity).
  assert (LO : exists q, impact_locations_from_polygons (meets P n h) md (md_set_collided md m) [] = Ok q).
  { unfold impact_locations_from_polygons. destruct (F m) as (_ & -> & _). unfold md, seen. cbn [md_mesh]. rewrite L. cbn [or_else filter meets intersects]. eexists. reflexivity. }
  destruct LO as [q LO].
  rewrite contact_P in A. rewrite <- (seen_cog joined_points 16 any_shape mean_centroid _ _ _ S) in A. fold md in A. unfold cog in A.
  eexists _, _. split; [discriminate|]. split; [|split; [exact G1|split; [exact G2|]]].
  - unfold resolve_collision_with_environment. fold md. rewrite (meets_geometry P n h _ _ N H O), V1. cbv zeta. destruct (Rlt_dec _ 0) as [Q|_]; [exfalso; lra|]. rewrite LO. cbn [meets is_polygon]. reflexivity.
  - split; [reflexivity|]. split; [reflexivity|]. split; [exact I|]. split; [|split; [eexists; exact L|eexists _, _; exact M]].
    unfold get_mesh in L. destruct (get_footprint joined_points 16 any_shape m) as [f|]; [exists f; reflexivity|discriminate].
Qed.

(** A car from the shelf and a square block with sides of 0.8 m. *)
Lemma a_car x y psi v d : exists m, default_model Car (mk cVehicleState [x; y; psi; v; d]) = Ok m /\ mo_kind m = KVehicle /\ mo_geo m = geo_default_car /\ mo_state m = mk cVehicleState [x; y; psi; v; d] /\
  instance_of (state_class (mo_kind m)) (mo_state m) /\ stands m (x, y) psi /\ has (mo_state m) "delta" d /\ has (mo_state m) "vx" v /\ weighs m 1300 1600 (5 / 10) /\
  moves m (in_world (0, 0) psi (v, v * tan d / (12 / 10 + 12 / 10) * (12 / 10))) (v * tan d / (12 / 10 + 12 / 10)) /\ exists p l, get_mesh joined_points 16 any_shape mean_centroid m = Ok (p :: l).
Proof.
  destruct (presets Car (mk cVehicleState [x; y; psi; v; d])) as (p & g & E & _ & -> & _); [discriminate|]. eexists. split; [exact E|]. cbn [own_kind mo_kind mo_geo mo_state]. repeat (split; [reflexivity|]).
  split; [apply inst_mk; [nolights|reflexivity]|]. split; [repeat split|]. split; [reflexivity|]. split; [reflexivity|]. split; [unfold weighs; cbn; repeat split; lra|]. split.
  - unfold moves, velocity. cbn [mo_kind mo_geo mo_state get_velocity wheelbase_lr ge_body geo_default_car g_lf g_lr fst snd]. unfold get_vehicle_velocity, getnum, getattr, mk. cbn. f_equal. unfold in_world, rot. cbn [fst snd]. repeat (apply pair_equal_spec; split); ring.
  - destruct (C117_mesh_pf joined_points 16 any_shape mean_centroid Car _ _ (x, y) psi mean_right E) as (r & l & b & f & M); [repeat split|left; reflexivity|]. eexists _, _. exact M.
Qed.

Definition block x y v M I e : model := mkModel KDynObstacle (mk cDynObstacleState [x; y; 0; v; 0; 0]) "DynObstacleState" (mkGeo (Some M) (Some I) e "black" GObstacle) (PModel (0, 1) (0, 1)) [(- (4 / 10), - (4 / 10)); (- (4 / 10), 4 / 10); (4 / 10, 4 / 10); (4 / 10, - (4 / 10)); (- (4 / 10), - (4 / 10))] None false.

Lemma a_block x y v M I e : 0 < M -> 0 < I -> let m := block x y v M I e in honest (mo_kind m) /\ instance_of (state_class (mo_kind m)) (mo_state m) /\ stands m (x, y) 0 /\ weighs m M I e /\ moves m (v, 0) 0 /\ exists p l, get_mesh joined_points 16 any_shape mean_centroid m = Ok (p :: l).
Proof.
  intros A B. cbv zeta. split; [unfold honest; cbn; tauto|]. split; [apply inst_mk; [nolights|reflexivity]|]. assert (S : stands (block x y v M I e) (x, y) 0) by (repeat split). split; [exact S|]. split; [repeat split; assumption|]. split.
  - unfold moves, velocity. cbn [block mo_kind mo_geo mo_state get_velocity]. unfold get_full_velocity, getnum, getattr, mk. cbn. f_equal. unfold rot. cbn [fst snd]. rewrite cos_0, sin_0. repeat (apply pair_equal_spec; split); ring.
  - eexists _, _. apply (proj1 (C115_whole_pf joined_points 16 any_shape mean_centroid (block x y v M I e) _ ltac:(cbn; tauto) (C115_obstacle_pf joined_points 16 any_shape _ _ _ S eq_refl))). reflexivity.
Qed.

Lemma OI {A} (b c : A) : Ok b = Ok c -> b = c.
Proof. intros [= H]. exact H. Qed.

Lemma moves_fun m v w v' w' : moves m v w -> moves m v' w' -> v' = v /\ w' = w.
Proof. unfold moves. intros -> E. apply OI in E. apply pair_equal_spec in E as [-> ->]. split; reflexivity. Qed.

(** A parked car that is hit from the side by a block of its own weight does not move at
    all: momentum is lost, and the block goes on into the car. *)
Theorem C120_sideways_refuted : exists sh ms ms' rep n P car block car' block' e vb vb' cb,
  (exists x0, default_model Car x0 = Ok car) /\ crash joined_points 16 any_shape mean_centroid sh 1 2 ms None 0 ms' rep n P car block car' block' /\ honest (mo_kind block) /\ weighs block 1300 1600 e /\
  weighs car 1300 1600 e /\ stands car (0, 0) (PI / 2) /\ stands block cb 0 /\ moves car (0, 0) 0 /\ moves block vb 0 /\ moves car' (0, 0) 0 /\ moves block' vb' 0 /\
  ~ same_momentum 1300 1300 (0, 0) (0, 0) vb vb' /\ approaching n P (0, 0) (0, 0) cb vb' 0 0.
Proof.
  destruct (a_car 0 0 (PI / 2) 0 0) as (ma & E & K & G & St & Ia & Sa & D & VX & Wa & Ma & xa & la & La).
  destruct (a_block (12 / 10) 0 (-1) 1300 1600 (5 / 10)) as (Hb & Ib & Sb & Wb & Mb & xb & lb & Lb); [lra|lra|].
  assert (Ma' : moves ma (0, 0) 0). { unfold moves in *. rewrite Ma. f_equal. unfold in_world. cbn [fst snd]. rewrite tan_0. unfold Rdiv. rewrite !Rmult_0_l. repeat (apply pair_equal_spec; split); ring. }
  clear Ma. set (mb := block _ _ _ _ _ _) in *.
  assert (N1 : vdot ((1, 0) : vec) (1, 0) = 1) by (unfold vdot; cbn; lra).
  destruct (happens (9 / 10, 0) (1, 0) (4 / 10) ma mb (0, 0) 0 (-1, 0) 0 (0, 0) (PI / 2) (12 / 10, 0) 0 la lb xa xb N1 ltac:(lra) ltac:(unfold vdot; cbn; lra) Ia Ib Ma' Mb Sa Sb La Lb) as (ms' & rep & na & nb & C).
  { unfold contact, vdot, vsub. cbn [fst snd]. lra. }
  destruct (crash_two _ _ _ _ _ _ _ _ _ _ _ _ _ _ _ _ _ _ _ _ _ _ _ _ _ _ _ _ _ _ _ _ C Wa Wb Ma' Mb Sa Sb) as (va' & wa' & vb' & wb' & T & EA & EB).
  destruct (two_bodies_inv _ _ _ _ _ _ _ _ _ _ _ _ _ _ _ _ _ _ _ _ _ _ _ _ _ _ _ (seen_flag_only _ _ _ _) T) as (_ & _ & _ & _ & _ & _ & _ & A1 & A2 & B1 & B2 & _).
  assert (Q1 : va' = (- (3 / 4), 0)). { rewrite A1. unfold velocity_of_P_given_A, vadd, vscale, vdot, vsub, vcross, rot90. cbn [fst snd]. rewrite Rmin_left by lra. apply pair_equal_spec; split; field. }
  assert (Q2 : vb' = (- (1 / 4), 0)). { rewrite B1. unfold velocity_of_P_given_A, vadd, vscale, vdot, vsub, vcross, rot90. cbn [fst snd]. rewrite Rmin_left by lra. apply pair_equal_spec; split; field. }
  assert (Q3 : wb' = 0). { rewrite B2. unfold vsub, vcross. cbn [fst snd]. unfold Rdiv. ring. }
  destruct (vehicle_rolls ma va' wa' (0, 0) (PI / 2) 0 K Ia Sa D) as [_ R]. rewrite <- EA in R. destruct (free_written mb vb' wb' Hb Ib) as (nb' & EB' & R' & _). rewrite <- EB in EB'. subst nb'.
  clear A1 A2 B1 B2 EA EB. subst va' vb' wb'. exists (meets (9 / 10, 0) (1, 0) (4 / 10)), [(1%nat, ma); (2%nat, mb)], ms', rep, (1, 0), (9 / 10, 0), ma, mb, na, nb, (5 / 10), (-1, 0), (- (1 / 4), 0), (12 / 10, 0).
  split; [eexists; exact E|]. repeat (split; [assumption|]). split.
  { assert (F0 : forward (PI / 2) (- (3 / 4), 0) = 0) by (unfold forward; cbn [fst snd]; rewrite cos_PI2; ring). rewrite F0, tan_0 in R. unfold moves in *. rewrite R. f_equal. unfold in_world. cbn [fst snd]. unfold Rdiv. rewrite !Rmult_0_l. repeat (apply pair_equal_spec; split); ring. }
  split; [exact R'|]. split.
  - unfold same_momentum, momentum, vadd. cbn [fst snd]. intro Q. apply pair_equal_spec in Q as [Q _]. lra.
  - unfold approaching, contact, vdot, vsub. cbn [fst snd]. lra.
Qed.

(** A parked car with turned wheels that is hit from behind gains more energy than the
    block loses. *)
Theorem C120_energy_refuted : exists sh ms ms' rep n P car block car' block' e vb vb' va' wa',
  (exists x0, default_model Car x0 = Ok car) /\ crash joined_points 16 any_shape mean_centroid sh 1 2 ms None 0 ms' rep n P car block car' block' /\ honest (mo_kind block) /\ weighs block 13000 16000 e /\
  weighs car 1300 1600 e /\ 0 <= e <= 1 /\ stands car (0, 0) PI /\ has (mo_state car) "delta" (PI / 4) /\ moves car (0, 0) 0 /\ moves block vb 0 /\ moves car' va' wa' /\ moves block' vb' 0 /\
  ~ no_more_energy 1300 1600 13000 16000 (0, 0) va' vb vb' 0 wa' 0 0.
Proof.
  destruct (a_car 0 0 PI 0 (PI / 4)) as (ma & E & K & G & St & Ia & Sa & D & VX & Wa & Ma & xa & la & La).
  destruct (a_block (21 / 10) 0 (-1) 13000 16000 (5 / 10)) as (Hb & Ib & Sb & Wb & Mb & xb & lb & Lb); [lra|lra|].
  assert (Ma' : moves ma (0, 0) 0). { unfold moves in *. rewrite Ma. f_equal. unfold in_world. cbn [fst snd]. rewrite tan_PI4. unfold Rdiv. rewrite !Rmult_0_l. repeat (apply pair_equal_spec; split); ring. }
  clear Ma. set (mb := block _ _ _ _ _ _) in *.
  assert (N1 : vdot ((1, 0) : vec) (1, 0) = 1) by (unfold vdot; cbn; lra).
  destruct (happens (18 / 10, 0) (1, 0) (4 / 10) ma mb (0, 0) 0 (-1, 0) 0 (0, 0) PI (21 / 10, 0) 0 la lb xa xb N1 ltac:(lra) ltac:(unfold vdot; cbn; lra) Ia Ib Ma' Mb Sa Sb La Lb) as (ms' & rep & na & nb & C).
  { unfold contact, vdot, vsub. cbn [fst snd]. lra. }
  destruct (crash_two _ _ _ _ _ _ _ _ _ _ _ _ _ _ _ _ _ _ _ _ _ _ _ _ _ _ _ _ _ _ _ _ C Wa Wb Ma' Mb Sa Sb) as (va' & wa' & vb' & wb' & T & EA & EB).
  destruct (two_bodies_inv _ _ _ _ _ _ _ _ _ _ _ _ _ _ _ _ _ _ _ _ _ _ _ _ _ _ _ (seen_flag_only _ _ _ _) T) as (_ & _ & _ & _ & _ & _ & _ & A1 & A2 & B1 & B2 & _).
  assert (Q1 : va' = (- (15 / 11), 0)). { rewrite A1. unfold velocity_of_P_given_A, vadd, vscale, vdot, vsub, vcross, rot90. cbn [fst snd]. rewrite Rmin_left by lra. apply pair_equal_spec; split; field. }
  assert (Q2 : vb' = (- (19 / 22), 0)). { rewrite B1. unfold velocity_of_P_given_A, vadd, vscale, vdot, vsub, vcross, rot90. cbn [fst snd]. rewrite Rmin_left by lra. apply pair_equal_spec; split; field. }
  assert (Q3 : wb' = 0). { rewrite B2. unfold vsub, vcross. cbn [fst snd]. unfold Rdiv. ring. }
  destruct (vehicle_rolls ma va' wa' (0, 0) PI (PI / 4) K Ia Sa D) as [_ R]. rewrite <- EA in R. destruct (free_written mb vb' wb' Hb Ib) as (nb' & EB' & R' & _). rewrite <- EB in EB'. subst nb'.
  clear A1 A2 B1 B2 EA EB. subst va' vb' wb'.
  assert (F0 : forward PI (- (15 / 11), 0) = 15 / 11) by (unfold forward; cbn [fst snd]; rewrite cos_PI, sin_PI; field). rewrite F0, tan_PI4, G in R. cbn [between_axles to_rear_axle ge_body geo_default_car g_lf g_lr fst snd] in R.
  exists (meets (18 / 10, 0) (1, 0) (4 / 10)), [(1%nat, ma); (2%nat, mb)], ms', rep, (1, 0), (18 / 10, 0), ma, mb, na, nb, (5 / 10), (-1, 0), (- (19 / 22), 0). eexists _, _.
  split; [eexists; exact E|]. do 4 (split; [assumption|]). split; [lra|]. do 4 (split; [assumption|]). split; [exact R|]. split; [exact R'|].
  unfold no_more_energy, energy, in_world, vdot. cbn [fst snd]. rewrite cos_PI, sin_PI. lra.
Qed.

(** A car that drives with its corner into a wall goes on driving into it. *)
Theorem C120_corner_refuted : exists sh rep n P car car' va va',
  (exists x0, default_model Car x0 = Ok car) /\ crash_env joined_points 16 any_shape mean_centroid sh "everywhere" 0 1 car [] geo_default_static 0 car' rep n P /\ straight car /\ stands car (0, 0) 0 /\
  moves car va 0 /\ moves car' va' 0 /\ approaching n P (0, 0) va (0, 0) (0, 0) 0 0 /\ approaching n P (0, 0) va' (0, 0) (0, 0) 0 0.
Proof.
  destruct (a_car 0 0 0 1 0) as (ma & E & K & G & St & Ia & Sa & D & VX & Wa & Ma & xa & la & La).
  assert (Ma' : moves ma (1, 0) 0). { unfold moves in *. rewrite Ma. f_equal. unfold in_world. cbn [fst snd]. rewrite tan_0, cos_0, sin_0. unfold Rdiv. repeat (apply pair_equal_spec; split); ring. }
  clear Ma. assert (N1 : vdot ((4 / 5, 3 / 5) : vec) (4 / 5, 3 / 5) = 1) by (unfold vdot; cbn; lra).
  destruct (happens_wall (165 / 100, 7 / 10) (4 / 5, 3 / 5) (1 / 4) ma (1, 0) 0 (0, 0) 0 la xa geo_default_static N1 ltac:(lra) ltac:(unfold vdot; cbn; lra) Ia Ma' Sa La eq_refl eq_refl) as (na & rep & C).
  { unfold contact, vdot. cbn [fst snd]. lra. }
  destruct (env_one _ _ _ _ _ _ _ _ _ _ _ _ _ _ _ _ _ _ _ _ _ _ _ C Wa Ma' Sa) as (va' & wa' & T & EA).
  destruct (against_wall_inv _ _ _ _ _ _ _ _ _ _ _ _ _ _ _ _ _ _ _ _ _ (seen_flag_only _ _ _ _) T) as (_ & _ & _ & _ & _ & A1 & _).
  destruct (vehicle_rolls ma va' wa' (0, 0) 0 0 K Ia Sa D) as [_ R]. rewrite <- EA in R. unfold forward in R. rewrite tan_0, cos_0, sin_0 in R.
  assert (Q1 : 0 < fst va'). { rewrite A1. unfold velocity_of_P_given_A, vadd, vscale, vdot, vsub, vcross, rot90. cbn [fst snd CollModel.g_e as_body ge_e geo_default_static]. rewrite Rmin_right by lra. match goal with |- 0 < ?t => replace t with (1 - 14 / 10 * (4 / 5) * (4 / 5) / (1 + 1300 * (43 / 100 * (43 / 100)) / 1600)) by field end. lra. }
  eexists (meets _ _ _), rep, _, _, ma, na, (1, 0), (fst va', 0). split; [eexists; exact E|]. split; [exact C|]. split; [split; assumption|]. split; [exact Sa|]. split; [exact Ma'|]. split; [|split].
  - unfold moves in *. rewrite R. f_equal. unfold in_world. cbn [fst snd]. rewrite cos_0, sin_0. unfold Rdiv. repeat (apply pair_equal_spec; split); ring.
  - unfold approaching, contact, vdot, vsub. cbn [fst snd]. lra.
  - unfold approaching, contact, vdot, vsub. cbn [fst snd]. lra.
Qed.

Example C119_ex : exists ms' rep ma' mb', crash joined_points 16 any_shape mean_centroid (meets (35 / 100, 0) (1, 0) (4 / 10)) 1 2 [(1%nat, block 0 0 2 50 10 (1 / 2)); (2%nat, block (7 / 10) 0 (-1) 100 20 (3 / 4))] None 0 ms' rep (1, 0) (35 / 100, 0)
    (block 0 0 2 50 10 (1 / 2)) (block (7 / 10) 0 (-1) 100 20 (3 / 4)) ma' mb' /\
  honest (mo_kind (block 0 0 2 50 10 (1 / 2))) /\ weighs (block 0 0 2 50 10 (1 / 2)) 50 10 (1 / 2) /\ moves (block 0 0 2 50 10 (1 / 2)) (2, 0) 0 /\ stands (block 0 0 2 50 10 (1 / 2)) (0, 0) 0 /\
  exists m' rep', crash_env joined_points 16 any_shape mean_centroid (meets (35 / 100, 0) (1, 0) (4 / 10)) "everywhere" 0 1 (block 0 0 2 50 10 (1 / 2)) [] geo_default_static 0 m' rep' (1, 0) (35 / 100, 0).
Proof.
  destruct (a_block 0 0 2 50 10 (1 / 2)) as (Ha & Ia & Sa & Wa & Ma & xa & la & La); [lra|lra|]. destruct (a_block (7 / 10) 0 (-1) 100 20 (3 / 4)) as (Hb & Ib & Sb & Wb & Mb & xb & lb & Lb); [lra|lra|].
  assert (N1 : vdot ((1, 0) : vec) (1, 0) = 1) by (unfold vdot; cbn; lra).
  destruct (happens (35 / 100, 0) (1, 0) (4 / 10) _ _ _ _ _ _ _ _ _ _ _ _ _ _ N1 ltac:(lra) ltac:(unfold vdot; cbn; lra) Ia Ib Ma Mb Sa Sb La Lb) as (ms' & rep & na & nb & C); [unfold contact, vdot, vsub; cbn [fst snd]; lra|].
  exists ms', rep, na, nb. split; [exact C|]. do 4 (split; [assumption|]).
  exact (happens_wall (35 / 100, 0) (1, 0) (4 / 10) _ _ _ _ _ _ _ geo_default_static N1 ltac:(lra) ltac:(unfold vdot; cbn; lra) Ia Ma Sa La eq_refl eq_refl ltac:(unfold contact, vdot; cbn [fst snd]; lra)).
Qed.

(** A car that hits a wall head-on. *)
Example C120_ex : exists car car' rep, default_model Car (mk cVehicleState [0; 0; 0; 3; 0]) = Ok car /\ straight car /\ stands car (0, 0) 0 /\ has (mo_state car) "vx" 3 /\ weighs car 1300 1600 (5 / 10) /\
  crash_env joined_points 16 any_shape mean_centroid (meets (18 / 10, 0) (1, 0) (9 / 10)) "everywhere" 0 1 car [] geo_default_static 0 car' rep (1, 0) (18 / 10, 0) /\ has (mo_state car') "vx" (- (12 / 10)).
Proof.
  destruct (a_car 0 0 0 3 0) as (ma & E & K & G & St & Ia & Sa & D & VX & Wa & Ma & xa & la & La).
  assert (Ma' : moves ma (3, 0) 0). { unfold moves in *. rewrite Ma. f_equal. unfold in_world. cbn [fst snd]. rewrite tan_0, cos_0, sin_0. unfold Rdiv. repeat (apply pair_equal_spec; split); ring. }
  assert (N1 : vdot ((1, 0) : vec) (1, 0) = 1) by (unfold vdot; cbn; lra).
  destruct (happens_wall (18 / 10, 0) (1, 0) (9 / 10) ma (3, 0) 0 (0, 0) 0 la xa geo_default_static N1 ltac:(lra) ltac:(unfold vdot; cbn; lra) Ia Ma' Sa La eq_refl eq_refl) as (na & rep & C); [unfold contact, vdot; cbn [fst snd]; lra|].
  exists ma, na, rep. split; [exact E|]. split; [split; assumption|]. do 3 (split; [assumption|]). split; [exact C|].
  destruct (C120_head_on_partial _ _ _ _ _ _ _ _ _ _ _ _ _ _ _ _ _ _ _ _ 0 3 1 C Wa Sa (conj K D) VX) as [_ H]; [unfold vscale; cbn [fst snd]; rewrite cos_0, sin_0; apply pair_equal_spec; split; ring|unfold vcross, vsub; cbn; ring|].
  cbn [ge_e geo_default_static] in H. rewrite Rmin_right in H by lra. replace (- (12 / 10)) with (- (4 / 10) * 3) by field. exact H.
Qed.

(** ** C121  Dynamic vehicles, pedestrians and robots *)

Lemma dyn_written m v w : mo_kind m = KVehicleDyn -> instance_of (state_class (mo_kind m)) (mo_state m) -> forall v0 w0, moves m v0 w0 ->
  let m' := or_else (collide m) (with_velocity (collide m) v w) in moves m' v w0 /\ stays m m'.
Proof.
  intros K I v0 w0 M. cbv zeta. unfold with_velocity. cbn [collide mo_kind mo_state]. rewrite K in *. cbn [state_class] in I. unfold moves, velocity in M. rewrite K in M.
  destruct (C55_vehicle_dyn_partial_pf (fst (wheelbase_lr (ge_body (mo_geo m)))) (snd (wheelbase_lr (ge_body (mo_geo m)))) _ v w false I) as (st' & d & E & H1 & _ & G & _). rewrite E. cbn [bind or_else].
  assert (Q : d = w0).
  { cbn [get_velocity] in M. unfold get_full_velocity, getnum in M. unfold has in H1. rewrite H1 in M. destruct (getattr (mo_state m) "vx") as [[?|?]|]; [|discriminate|discriminate]. destruct (getattr (mo_state m) "vy") as [[?|?]|]; [|discriminate|discriminate]. destruct (getattr (mo_state m) "psi") as [[?|?]|]; [|discriminate|discriminate].
    cbn [DataModel.bind] in M. apply OI in M. apply pair_equal_spec in M as [_ M]. exact M. }
  subst d. split.
  - unfold moves, velocity, set_state. cbn [mo_kind mo_geo mo_state collide]. rewrite K. exact G.
  - unfold stays, set_state. cbn [mo_kind mo_geo mo_params mo_shape mo_collided mo_state collide]. rewrite K. repeat (split; [reflexivity|]). intros f N. cbn [set_velocity] in E. destruct (to_model_frame (mo_state m) v false) as [u|]; [|discriminate]. cbn [DataModel.bind] in E. apply OI in E. subst st'.
    cbn in N. rewrite !DataProofs.getattr_other by (intros ->; apply N; tauto). reflexivity.
Qed.

(** Free bodies and dynamic vehicles have the velocity that is reported, so momentum is
    conserved; but a dynamic vehicle goes on turning as before. *)
Theorem C121_dynamic_partial : forall union quad valid middle sh a b ms sc t ms' rep n P ma mb ma' mb' m1 i1 e1 m2 i2 e2 va wa vb wb ca pa cb pb,
  crash union quad valid middle sh a b ms sc t ms' rep n P ma mb ma' mb' -> weighs ma m1 i1 e1 -> weighs mb m2 i2 e2 -> moves ma va wa -> moves mb vb wb -> stands ma ca pa -> stands mb cb pb ->
  honest (mo_kind ma) \/ mo_kind ma = KVehicleDyn -> honest (mo_kind mb) \/ mo_kind mb = KVehicleDyn ->
  exists va' wa' vb' wb' oa ob, afterwards rep a va' oa /\ afterwards rep b vb' ob /\ moves ma' va' wa' /\ moves mb' vb' wb' /\ stays ma ma' /\ stays mb mb' /\ same_momentum m1 m2 va va' vb vb' /\
    (honest (mo_kind ma) -> wa' = oa) /\ (honest (mo_kind mb) -> wb' = ob) /\ (mo_kind ma = KVehicleDyn -> wa' = wa) /\ (mo_kind mb = KVehicleDyn -> wb' = wb).
Proof.
  intros union quad valid middle sh a b ms sc t ms' rep n P ma mb ma' mb' m1 i1 e1 m2 i2 e2 va wa vb wb ca pa cb pb C Wa Wb Ma Mb Sa Sb Ha Hb.
  destruct (crash_two _ _ _ _ _ _ _ _ _ _ _ _ _ _ _ _ _ _ _ _ _ _ _ _ _ _ _ _ _ _ _ _ C Wa Wb Ma Mb Sa Sb) as (va' & wa' & vb' & wb' & T & -> & ->).
  destruct C as (_ & _ & _ & _ & _ & _ & _ & _ & (Ia & _) & (Ib & _)). pose proof (seen_flag_only union quad valid middle) as F.
  destruct (C41_momentum_pf _ _ _ _ _ _ _ _ _ _ _ _ _ _ _ _ _ _ _ _ _ _ _ _ _ _ _ _ _ _ F T) as (Q1 & _ & _).
  assert (W : forall m v0 w0 v w, instance_of (state_class (mo_kind m)) (mo_state m) -> moves m v0 w0 -> honest (mo_kind m) \/ mo_kind m = KVehicleDyn ->
    exists w', let m' := or_else (collide m) (with_velocity (collide m) v w) in moves m' v w' /\ stays m m' /\ (honest (mo_kind m) -> w' = w) /\ (mo_kind m = KVehicleDyn -> w' = w0)).
  { intros m v0 w0 v w I M [H|H].
    - destruct (free_written m v w H I) as (m' & -> & N1 & N2 & _). exists w. cbv zeta. split; [assumption|]. split; [assumption|]. split; [reflexivity|]. intro K. rewrite K in H. unfold honest in H. exfalso. intuition discriminate.
    - destruct (dyn_written m v w H I _ _ M) as [N1 N2]. exists w0. cbv zeta. split; [exact N1|]. split; [exact N2|]. split; [|reflexivity]. intro K. rewrite H in K. unfold honest in K. exfalso. intuition discriminate. }
  destruct (W ma va wa va' wa' Ia Ma Ha) as (oa & N1 & N2 & N3 & N4). destruct (W mb vb wb vb' wb' Ib Mb Hb) as (ob & N5 & N6 & N7 & N8).
  destruct T as (_ & _ & _ & _ & _ & _ & _ & A1 & A2). exists va', oa, vb', ob, wa', wb'. repeat (split; [assumption|]). assumption.
Qed.

Lemma a_dyn_car x y psi v : exists m, default_model DynCar (mk cVehicleStateDyn [x; y; psi; v; 0; 0; 0]) = Ok m /\ mo_kind m = KVehicleDyn /\ 
  instance_of (state_class (mo_kind m)) (mo_state m) /\ stands m (x, y) psi /\ weighs m 1300 1600 (5 / 10) /\
  moves m (in_world (0, 0) psi (v, 0)) 0 /\ exists p l, get_mesh joined_points 16 any_shape mean_centroid m = Ok (p :: l).
Proof.
  destruct (presets DynCar (mk cVehicleStateDyn [x; y; psi; v; 0; 0; 0])) as (p & g & E & _ & -> & _); [discriminate|]. eexists. split; [exact E|]. cbn [own_kind mo_kind mo_geo mo_state]. repeat (split; [reflexivity|]).
  split; [apply inst_mk; [nolights|reflexivity]|]. split; [repeat split|]. split; [unfold weighs; cbn; repeat split; lra|]. split.
  - unfold moves, velocity. cbn [mo_kind mo_geo mo_state get_velocity]. unfold get_full_velocity, getnum, getattr, mk. cbn. f_equal. unfold in_world, rot. cbn [fst snd]. repeat (apply pair_equal_spec; split); ring.
  - destruct (C117_mesh_pf joined_points 16 any_shape mean_centroid DynCar _ _ (x, y) psi mean_right E) as (r & l & b & f & M); [repeat split|right; left; reflexivity|]. eexists _, _. exact M.
Qed.

(** A parked dynamic car that is hit at a corner does not turn: angular momentum is lost. *)
Theorem C121_spin_refuted : exists sh ms ms' rep n P car block car' block' e vb va' vb' cb,
  (exists x0, default_model DynCar x0 = Ok car) /\ crash joined_points 16 any_shape mean_centroid sh 1 2 ms None 0 ms' rep n P car block car' block' /\ honest (mo_kind block) /\ weighs block 1300 1600 e /\
  weighs car 1300 1600 e /\ stands car (0, 0) 0 /\ stands block cb 0 /\ moves car (0, 0) 0 /\ moves block vb 0 /\ moves car' va' 0 /\ moves block' vb' 0 /\
  ~ same_spin 1300 1600 1300 1600 (0, 0) (0, 0) va' cb vb vb' 0 0 0 0.
Proof.
  destruct (a_dyn_car 0 0 0 0) as (ma & E & K & Ia & Sa & Wa & Ma & xa & la & La).
  destruct (a_block (21 / 10) (4 / 10) (-1) 1300 1600 (5 / 10)) as (Hb & Ib & Sb & Wb & Mb & xb & lb & Lb); [lra|lra|].
  assert (Ma' : moves ma (0, 0) 0). { unfold moves in *. rewrite Ma. f_equal. unfold in_world. cbn [fst snd]. repeat (apply pair_equal_spec; split); ring. }
  clear Ma. set (mb := block _ _ _ _ _ _) in *.
  assert (N1 : vdot ((1, 0) : vec) (1, 0) = 1) by (unfold vdot; cbn; lra).
  destruct (happens (18 / 10, 4 / 10) (1, 0) (4 / 10) ma mb (0, 0) 0 (-1, 0) 0 (0, 0) 0 (21 / 10, 4 / 10) 0 la lb xa xb N1 ltac:(lra) ltac:(unfold vdot; cbn; lra) Ia Ib Ma' Mb Sa Sb La Lb) as (ms' & rep & na & nb & C).
  { unfold contact, vdot, vsub. cbn [fst snd]. lra. }
  destruct (crash_two _ _ _ _ _ _ _ _ _ _ _ _ _ _ _ _ _ _ _ _ _ _ _ _ _ _ _ _ _ _ _ _ C Wa Wb Ma' Mb Sa Sb) as (va' & wa' & vb' & wb' & T & EA & EB).
  destruct (two_bodies_inv _ _ _ _ _ _ _ _ _ _ _ _ _ _ _ _ _ _ _ _ _ _ _ _ _ _ _ (seen_flag_only _ _ _ _) T) as (_ & _ & _ & _ & _ & _ & _ & A1 & A2 & B1 & B2 & _).
  assert (Q1 : exists u, va' = (u, 0) /\ u < 0).
  { eexists. split; [rewrite A1; unfold velocity_of_P_given_A, vadd, vscale, vdot, vsub, vcross, rot90; cbn [fst snd]; rewrite Rmin_left by lra; apply pair_equal_spec; split; [reflexivity|ring]|].
    match goal with |- ?t < 0 => replace t with (- (15 / 10) / (2 + 1300 * (4 / 25) / 1600)) by field end. lra. }
  assert (Q2 : snd vb' = 0). { rewrite B1. unfold vadd, vscale. cbn [fst snd]. ring. }
  assert (Q3 : wb' = 0). { rewrite B2. unfold vsub, vcross. cbn [fst snd]. unfold Rdiv. ring. }
  destruct (dyn_written ma va' wa' K Ia _ _ Ma') as [R _]. rewrite <- EA in R. destruct (free_written mb vb' wb' Hb Ib) as (nb' & EB' & R' & _). rewrite <- EB in EB'. subst nb'.
  clear A1 A2 B1 B2 EA EB. destruct Q1 as (u & -> & U). subst wb'. exists (meets (18 / 10, 4 / 10) (1, 0) (4 / 10)), [(1%nat, ma); (2%nat, mb)], ms', rep, (1, 0), (18 / 10, 4 / 10), ma, mb, na, nb, (5 / 10), (-1, 0), (u, 0), vb', (21 / 10, 4 / 10).
  split; [eexists; exact E|]. repeat (split; [assumption|]).
  intro Q. specialize (Q (0, 4 / 10)). unfold ang_momentum, vcross, vsub in Q. cbn [fst snd] in Q. rewrite Q2 in Q. lra.
Qed.

Lemma pedestrian_written m v w c psi : mo_kind m = KPedestrian -> instance_of (state_class (mo_kind m)) (mo_state m) -> stands m c psi -> forall v0 w0, moves m v0 w0 ->
  let m' := or_else (collide m) (with_velocity (collide m) v w) in moves m' (in_world (0, 0) psi (w, sideways psi v)) w0 /\ stays m m'.
Proof.
  intros K I (X & Y & P) v0 w0 M. cbv zeta. unfold with_velocity. cbn [collide mo_kind mo_state]. unfold moves, velocity in M. rewrite K in *. destruct m as [k st xt g pr sh ty co]. cbn [mo_kind mo_state mo_geo] in *. subst k.
  cbn [state_class] in I. inst st I. unfold has, getattr in *. cbn in X, Y, P. injection X as X. injection Y as Y. injection P as P. subst.
  unfold get_velocity, get_full_velocity, getnum, getattr, mk in M. cbn in M. apply OI in M. apply pair_equal_spec in M as [_ M]. subst w0. split.
  - unfold set_velocity, to_model_frame, getnum, getattr, setattr, mk. cbn. unfold moves, velocity, set_state, collide. cbn [mo_kind mo_geo mo_state get_velocity]. unfold get_full_velocity, getnum, getattr. cbn. f_equal. unfold sideways, in_world, rot. cbn [fst snd]. rewrite cos_neg, sin_neg. repeat (apply pair_equal_spec; split); ring.
  - unfold set_velocity, to_model_frame, getnum, getattr, mk. cbn. unfold stays, set_state. cbn [mo_kind mo_geo mo_params mo_shape mo_collided mo_state collide]. repeat (split; [reflexivity|]). intros f N.
    cbn in N. rewrite !DataProofs.getattr_other by (intros ->; apply N; tauto). reflexivity.
Qed.

(** A pedestrian walks on with the computed rotation rate as its forward speed: only the
    sideways part of the velocity is as reported. *)
Theorem C121_pedestrian : forall union quad valid middle sh a b ms sc t ms' rep n P ma mb ma' mb' m1 i1 e1 m2 i2 e2 va wa vb wb ca pa cb pb,
  crash union quad valid middle sh a b ms sc t ms' rep n P ma mb ma' mb' -> weighs ma m1 i1 e1 -> weighs mb m2 i2 e2 -> moves ma va wa -> moves mb vb wb -> stands ma ca pa -> stands mb cb pb ->
  exists va' wa' vb' wb', afterwards rep a va' wa' /\ afterwards rep b vb' wb' /\
    (mo_kind ma = KPedestrian -> moves ma' (in_world (0, 0) pa (wa', sideways pa va')) wa /\ stays ma ma') /\ (mo_kind mb = KPedestrian -> moves mb' (in_world (0, 0) pb (wb', sideways pb vb')) wb /\ stays mb mb').
Proof.
  intros union quad valid middle sh a b ms sc t ms' rep n P ma mb ma' mb' m1 i1 e1 m2 i2 e2 va wa vb wb ca pa cb pb C Wa Wb Ma Mb Sa Sb.
  destruct (crash_two _ _ _ _ _ _ _ _ _ _ _ _ _ _ _ _ _ _ _ _ _ _ _ _ _ _ _ _ _ _ _ _ C Wa Wb Ma Mb Sa Sb) as (va' & wa' & vb' & wb' & T & -> & ->).
  destruct C as (_ & _ & _ & _ & _ & _ & _ & _ & (Ia & _) & (Ib & _)). exists va', wa', vb', wb'. destruct T as (_ & _ & _ & _ & _ & _ & _ & A1 & A2). split; [exact A1|]. split; [exact A2|].
  split; intro K; eapply pedestrian_written; eassumption.
Qed.

(** A standing pedestrian that is hit from behind, in the middle, by a block of its own
    weight stays where it is. *)
Theorem C121_pedestrian_refuted : exists sh ms ms' rep n P ped block ped' block' e vb vb' cb,
  (exists x0, default_model Pedestrian x0 = Ok ped) /\ crash joined_points 16 any_shape mean_centroid sh 1 2 ms None 0 ms' rep n P ped block ped' block' /\ honest (mo_kind block) /\ weighs block 75 50 e /\
  weighs ped 75 50 e /\ stands ped (0, 0) PI /\ stands block cb 0 /\ moves ped (0, 0) 0 /\ moves block vb 0 /\ moves ped' (0, 0) 0 /\ moves block' vb' 0 /\
  ~ same_momentum 75 75 (0, 0) (0, 0) vb vb' /\ approaching n P (0, 0) (0, 0) cb vb' 0 0.
Proof.
  destruct (presets Pedestrian (mk cPedestrianState [0; 0; PI; 0; 0; 0])) as (p & g & E & _ & -> & _); [reflexivity|]. set (ma := mkModel _ _ _ _ _ _ _ _) in E.
  assert (Ia : instance_of (state_class (mo_kind ma)) (mo_state ma)) by (apply inst_mk; [nolights|reflexivity]). assert (Sa : stands ma (0, 0) PI) by (repeat split).
  assert (Wa : weighs ma 75 50 (35 / 100)) by (unfold weighs; cbn; repeat split; lra).
  assert (Ma : moves ma (0, 0) 0) by (unfold moves, velocity; cbn; f_equal; unfold rot; cbn [fst snd]; repeat (apply pair_equal_spec; split); ring).
  assert (La : exists xa la, get_mesh joined_points 16 any_shape mean_centroid ma = Ok (xa :: la)).
  { eexists _, _. refine (proj1 (C115_whole_pf joined_points 16 any_shape mean_centroid ma _ ltac:(cbn; tauto) _) _); [|reflexivity]. eapply C115_footprint_pf; [exact Sa|reflexivity|discriminate|reflexivity]. }
  destruct La as (xa & la & La). destruct (a_block (8 / 10) 0 (-1) 75 50 (35 / 100)) as (Hb & Ib & Sb & Wb & Mb & xb & lb & Lb); [lra|lra|]. set (mb := block _ _ _ _ _ _) in *.
  assert (N1 : vdot ((1, 0) : vec) (1, 0) = 1) by (unfold vdot; cbn; lra).
  destruct (happens (42 / 100, 0) (1, 0) (4 / 10) ma mb (0, 0) 0 (-1, 0) 0 (0, 0) PI (8 / 10, 0) 0 la lb xa xb N1 ltac:(lra) ltac:(unfold vdot; cbn; lra) Ia Ib Ma Mb Sa Sb La Lb) as (ms' & rep & na & nb & C).
  { unfold contact, vdot, vsub. cbn [fst snd]. lra. }
  destruct (crash_two _ _ _ _ _ _ _ _ _ _ _ _ _ _ _ _ _ _ _ _ _ _ _ _ _ _ _ _ _ _ _ _ C Wa Wb Ma Mb Sa Sb) as (va' & wa' & vb' & wb' & T & EA & EB).
  destruct (two_bodies_inv _ _ _ _ _ _ _ _ _ _ _ _ _ _ _ _ _ _ _ _ _ _ _ _ _ _ _ (seen_flag_only _ _ _ _) T) as (_ & _ & _ & _ & _ & _ & _ & A1 & A2 & B1 & B2 & _).
  assert (Q0 : snd va' = 0). { rewrite A1. unfold vadd, vscale. cbn [fst snd]. ring. }
  assert (Q1 : wa' = 0). { rewrite A2. unfold vsub, vcross. cbn [fst snd]. unfold Rdiv. ring. }
  assert (Q2 : vb' = (- (325 / 1000), 0)). { rewrite B1. unfold velocity_of_P_given_A, vadd, vscale, vdot, vsub, vcross, rot90. cbn [fst snd]. rewrite Rmin_left by lra. apply pair_equal_spec; split; field. }
  assert (Q3 : wb' = 0). { rewrite B2. unfold vsub, vcross. cbn [fst snd]. unfold Rdiv. ring. }
  destruct (pedestrian_written ma va' wa' (0, 0) PI eq_refl Ia Sa _ _ Ma) as [R _]. rewrite <- EA in R. destruct (free_written mb vb' wb' Hb Ib) as (nb' & EB' & R' & _). rewrite <- EB in EB'. subst nb'.
  clear A1 A2 B1 B2 EA EB. subst wa' vb' wb'. exists (meets (42 / 100, 0) (1, 0) (4 / 10)), [(1%nat, ma); (2%nat, mb)], ms', rep, (1, 0), (42 / 100, 0), ma, mb, na, nb, (35 / 100), (-1, 0), (- (325 / 1000), 0), (8 / 10, 0).
  split; [eexists; exact E|]. repeat (split; [assumption|]). split.
  { unfold moves in *. rewrite R. f_equal. unfold in_world, sideways. cbn [fst snd]. rewrite Q0, sin_PI. repeat (apply pair_equal_spec; split); ring. }
  split; [exact R'|]. split.
  - unfold same_momentum, momentum, vadd. cbn [fst snd]. intro Q. apply pair_equal_spec in Q as [Q _]. lra.
  - unfold approaching, contact, vdot, vsub. cbn [fst snd]. lra.
Qed.

(** A differential drive robot counts as standing still, whatever its wheels do, and a
    collision changes nothing but its flag. *)
Theorem C121_diff_drive : forall union quad valid middle sh a b ms sc t ms' rep n P ma mb ma' mb',
  crash union quad valid middle sh a b ms sc t ms' rep n P ma mb ma' mb' ->
  (mo_kind ma = KDiffDrive -> moves ma (0, 0) 0 /\ moves ma' (0, 0) 0 /\ mo_state ma' = mo_state ma /\ mo_collided ma' = true) /\ (mo_kind mb = KDiffDrive -> moves mb (0, 0) 0 /\ moves mb' (0, 0) 0 /\ mo_state mb' = mo_state mb /\ mo_collided mb' = true).
Proof.
  intros union quad valid middle sh a b ms sc t ms' rep n P ma mb ma' mb' (Hab & H & _ & _ & A & B & A' & B' & _).
  destruct (C43_resolved_pf _ _ _ sh _ a b ms sc t ms' rep (seen_flag_only union quad valid middle) Hab H) as (xa & xb & ya & yb & Q1 & Q2 & _ & _ & _ & Q5 & Q6 & _).
  rewrite A in Q1. injection Q1 as <-. rewrite B in Q2. injection Q2 as <-. rewrite A' in Q5. injection Q5 as ->. rewrite B' in Q6. injection Q6 as ->.
  assert (W : forall m o, mo_kind m = KDiffDrive -> let m' := md_set_velocity (seen union quad valid middle) (md_set_collided (seen union quad valid middle) m) o in moves m (0, 0) 0 /\ moves m' (0, 0) 0 /\ mo_state m' = mo_state m /\ mo_collided m' = true).
  { intros m o K. cbv zeta. unfold seen. cbn [md_set_velocity md_set_collided]. destruct o as [[v w]|].
    - unfold with_velocity, set_velocity. cbn [collide mo_kind]. rewrite K. cbn [bind or_else]. unfold moves, velocity, set_state. cbn [mo_kind collide mo_state mo_collided]. rewrite K. repeat split.
    - unfold moves, velocity. cbn [mo_kind collide mo_state mo_collided]. rewrite K. repeat split. }
  split; intro K; apply W, K.
Qed.

Example C121_ex : exists car ms' rep car' mb', default_model DynCar (mk cVehicleStateDyn [0; 0; 0; 2; 0; 0; 0]) = Ok car /\ mo_kind car = KVehicleDyn /\ weighs car 1300 1600 (5 / 10) /\ stands car (0, 0) 0 /\ (exists v, moves car v 0) /\
  crash joined_points 16 any_shape mean_centroid (meets (18 / 10, 4 / 10) (1, 0) (4 / 10)) 1 2 [(1%nat, car); (2%nat, block (21 / 10) (4 / 10) (-1) 1300 1600 (5 / 10))] None 0 ms' rep (1, 0) (18 / 10, 4 / 10) car (block (21 / 10) (4 / 10) (-1) 1300 1600 (5 / 10)) car' mb'.
Proof.
  destruct (a_dyn_car 0 0 0 2) as (ma & E & K & Ia & Sa & Wa & Ma & xa & la & La).
  destruct (a_block (21 / 10) (4 / 10) (-1) 1300 1600 (5 / 10)) as (Hb & Ib & Sb & Wb & Mb & xb & lb & Lb); [lra|lra|].
  assert (N1 : vdot ((1, 0) : vec) (1, 0) = 1) by (unfold vdot; cbn; lra).
  destruct (happens (18 / 10, 4 / 10) (1, 0) (4 / 10) _ _ _ _ _ _ _ _ _ _ _ _ _ _ N1 ltac:(lra) ltac:(unfold vdot; cbn; lra) Ia Ib Ma Mb Sa Sb La Lb) as (ms' & rep & na & nb & C).
  { unfold contact, vdot, vsub, in_world. cbn [fst snd]. rewrite cos_0, sin_0. lra. }
  exists ma, ms', rep, na, nb. repeat (split; [assumption|]). split; [eexists; exact Ma|exact C].
Qed.
