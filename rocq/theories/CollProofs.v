(** Lemmas on collisions. *)
From Coq Require Import Reals Lra Psatz List Bool Arith Lia.
From Verif Require Import Base R2 GeoModel DictLemmas AssocLemmas CollModel CollSpec.
Import ListNotations.
Open Scope R_scope.

(** ** The impulse, for inverse masses *)
Section Impulse.
Variables (n va vb ra rb : vec) (wa wb ia ib ja jb e : R).
(** ia, ib: inverse masses; ja, jb: inverse inertias. *)
Let vn := vdot (vsub (velocity_of_P_given_A va wa ra) (velocity_of_P_given_A vb wb rb)) n.
Let k := ia + ib + (vcross ra n * vcross ra n * ja + vcross rb n * vcross rb n * jb).
Let j := - (1 + e) * vn / k.
Let va' := vadd va (vscale (j * ia) n).
Let vb' := vadd vb (vscale (- (j * ib)) n).
Let wa' := wa + j * vcross ra n * ja.
Let wb' := wb - j * vcross rb n * jb.

Lemma impulse_restitution : vdot n n = 1 -> k <> 0 ->
  vdot (vsub (velocity_of_P_given_A va' wa' ra) (velocity_of_P_given_A vb' wb' rb)) n = - e * vn.
Proof.
  intros Hn Hk.
  assert (E : vdot (vsub (velocity_of_P_given_A va' wa' ra) (velocity_of_P_given_A vb' wb' rb)) n =
    vn + j * ((ia + ib) * vdot n n + (vcross ra n * vcross ra n * ja + vcross rb n * vcross rb n * jb))).
  { unfold va', vb', wa', wb', vn. generalize j. intro j0. unfold velocity_of_P_given_A, vdot, vsub, vadd, vscale, rot90, vcross. cbn [fst snd]. ring. }
  rewrite E, Hn, Rmult_1_r. fold k. unfold j. field. exact Hk.
Qed.
Lemma impulse_energy (ma mb iza izb : R) : vdot n n = 1 -> k <> 0 -> ma * ia = 1 -> mb * ib = 1 -> iza * ja = 1 -> izb * jb = 1 ->
  (energy ma iza va' wa' + energy mb izb vb' wb') - (energy ma iza va wa + energy mb izb vb wb) = - ((1 - e * e) * (vn * vn)) / (2 * k).
Proof.
  intros Hn Hk M1 M2 M3 M4.
  assert (E : (energy ma iza va' wa' + energy mb izb vb' wb') - (energy ma iza va wa + energy mb izb vb wb) =
    j * (ma * ia * vdot va n - mb * ib * vdot vb n + iza * ja * wa * vcross ra n - izb * jb * wb * vcross rb n) +
    1 / 2 * (j * j) * ((ma * ia * ia + mb * ib * ib) * vdot n n + (vcross ra n * vcross ra n * (iza * ja) * ja + vcross rb n * vcross rb n * (izb * jb) * jb))).
  { unfold va', vb', wa', wb', energy. generalize j. intro j0. unfold velocity_of_P_given_A, vdot, vsub, vadd, vscale, rot90, vcross. cbn [fst snd]. field. }
  rewrite E, M1, M2, M3, M4, Hn.
  replace (1 * vdot va n - 1 * vdot vb n + 1 * wa * vcross ra n - 1 * wb * vcross rb n) with vn
    by (unfold vn, velocity_of_P_given_A, vdot, vsub, vadd, vscale, rot90, vcross; cbn [fst snd]; ring).
  replace ((1 * ia + 1 * ib) * 1 + (vcross ra n * vcross ra n * 1 * ja + vcross rb n * vcross rb n * 1 * jb)) with k by (unfold k; ring).
  unfold j. field. exact Hk.
Qed.
Lemma impulse_momentum (ma mb : R) : ma * ia = 1 -> mb * ib = 1 ->
  vadd (momentum ma va') (momentum mb vb') = vadd (momentum ma va) (momentum mb vb).
Proof.
  intros M1 M2. unfold va', vb', momentum. generalize j. intro j0. unfold vadd, vscale. cbn [fst snd]. f_equal.
  - replace (ma * (fst va + j0 * ia * fst n) + mb * (fst vb + - (j0 * ib) * fst n)) with (ma * fst va + mb * fst vb + j0 * fst n * (ma * ia - mb * ib)) by ring. rewrite M1, M2. ring.
  - replace (ma * (snd va + j0 * ia * snd n) + mb * (snd vb + - (j0 * ib) * snd n)) with (ma * snd va + mb * snd vb + j0 * snd n * (ma * ia - mb * ib)) by ring. rewrite M1, M2. ring.
Qed.
Lemma impulse_ang_momentum (ma mb iza izb : R) ca cb P o : ma * ia = 1 -> mb * ib = 1 -> iza * ja = 1 -> izb * jb = 1 ->
  ra = vsub P ca -> rb = vsub P cb ->
  ang_momentum ma iza ca va' wa' o + ang_momentum mb izb cb vb' wb' o = ang_momentum ma iza ca va wa o + ang_momentum mb izb cb vb wb o.
Proof.
  intros M1 M2 M3 M4 Ra Rb.
  assert (E : (ang_momentum ma iza ca va' wa' o + ang_momentum mb izb cb vb' wb' o) - (ang_momentum ma iza ca va wa o + ang_momentum mb izb cb vb wb o) =
    j * (ma * ia * vcross (vsub ca o) n - mb * ib * vcross (vsub cb o) n + iza * ja * vcross ra n - izb * jb * vcross rb n)).
  { unfold va', vb', wa', wb', ang_momentum. generalize j. intro j0. unfold vadd, vscale, vcross, vsub. cbn [fst snd]. ring. }
  rewrite M1, M2, M3, M4 in E.
  assert (Z : 1 * vcross (vsub ca o) n - 1 * vcross (vsub cb o) n + 1 * vcross ra n - 1 * vcross rb n = 0).
  { rewrite Ra, Rb. unfold vcross, vsub. cbn [fst snd]. ring. }
  rewrite Z in E. lra.
Qed.
End Impulse.

(** ** Normalisation and the impact normal *)
Lemma normalize_spec v : match normalize v with None => v = (0, 0) | Some n => v <> (0, 0) /\ vdot n n = 1 /\ v = vscale (vnorm v) n end.
Proof.
  unfold normalize. destruct (Req_EM_T (vnorm v) 0) as [E|E]; [apply vnorm_zero; exact E|].
  split; [intro C; apply E, vnorm_zero, C|]. destruct v as [x y]. pose proof (vnorm_sq (x, y)) as S. set (r := vnorm (x, y)) in *. unfold vdot, vscale in *. cbn [fst snd] in *. split.
  - replace (/ r * x * (/ r * x) + / r * y * (/ r * y)) with ((x * x + y * y) / (r * r)) by (field; exact E). rewrite S. field. intro Z. nra.
  - f_equal; field; exact E.
Qed.

Section G.
Context {Sh : Type} (sh : shapely Sh).

(** What compute_impact_geometry returns, case by case. *)
Lemma impact_inv a b nrm P : compute_impact_geometry sh a b = Ok (nrm, P) ->
  touches sh a b = false /\
  ((contains sh a b = true /\ P = centroid sh b /\ (nrm = None <-> centroid sh b = centroid sh a) /\
    (forall n, nrm = Some n -> vdot n n = 1 /\ vsub P (centroid sh a) = vscale (vnorm (vsub P (centroid sh a))) n)) \/
   (contains sh a b = false /\ exists p q, find_intersection_points sh a b = Ok [p; q] /\ P = midpoint p q /\ (nrm = None <-> p = q) /\
    (forall n, nrm = Some n -> vdot n n = 1 /\ vdot (vsub q p) n = 0 /\ 0 <= vdot (vsub P (centroid sh a)) n))).
Proof.
  unfold compute_impact_geometry. destruct (touches sh a b); [discriminate|]. cbv zeta. intro H. split; [reflexivity|].
  destruct (contains sh a b).
  - left. split; [reflexivity|]. injection H as <- <-. split; [reflexivity|]. set (r := vsub (centroid sh b) (centroid sh a)).
    pose proof (normalize_spec r) as N. destruct (normalize r) as [n|].
    + destruct N as (N1 & N2 & N3).
      assert (D : 0 <= vdot r n). { rewrite N3. pose proof (vnorm_nonneg r). unfold vdot, vscale in *. cbn [fst snd]. nra. }
      destruct (Rlt_dec (vdot r n) 0); [lra|]. split.
      * split; [discriminate|]. intro E. exfalso. apply N1. unfold r. rewrite E. unfold vsub. f_equal; ring.
      * intros n' [= <-]. split; [exact N2|exact N3].
    + split; [|discriminate]. split; [|reflexivity]. intros _. unfold r, vsub in N. injection N as A B.
      destruct (centroid sh a), (centroid sh b). cbn in *. f_equal; lra.
  - right. split; [reflexivity|]. destruct (find_intersection_points sh a b) as [pts|] eqn:E; [|discriminate].
    destruct pts as [|p [|q [|x pts]]]; try discriminate. exists p, q. split; [reflexivity|]. injection H as <- <-. split; [reflexivity|].
    set (v := (- (snd q - snd p), fst q - fst p)). pose proof (normalize_spec v) as N. set (r := vsub (midpoint p q) (centroid sh a)). destruct (normalize v) as [n|].
    + destruct N as (N1 & N2 & N3).
      assert (Dq : vdot (vsub q p) n = 0).
      { assert (Z : vdot (vsub q p) v = 0) by (unfold v, vdot, vsub; cbn [fst snd]; ring). rewrite N3 in Z.
        assert (vnorm v <> 0) by (intro C; apply N1, vnorm_zero, C). apply (Rmult_eq_reg_l (vnorm v)); [|assumption].
        unfold vdot, vscale in *. cbn [fst snd] in *. lra. }
      split.
      * split; [intro C; destruct (Rlt_dec (vdot r n) 0); discriminate C|]. intro C. exfalso. apply N1. unfold v. rewrite C. f_equal; ring.
      * intros n'. destruct (Rlt_dec (vdot r n) 0) as [L|L]; intros [= <-].
        -- unfold vdot, vneg in *. cbn [fst snd] in *. split; [lra|]. split; lra.
        -- split; [exact N2|]. split; [exact Dq|lra].
    + split; [|discriminate]. split; [|reflexivity]. intros _. unfold v in N. injection N as A B.
      destruct p, q. cbn in *. f_equal; lra.
Qed.

Lemma impact_normal_unit a b n P : compute_impact_geometry sh a b = Ok (Some n, P) -> vdot n n = 1.
Proof.
  intro H. apply impact_inv in H as (_ & [(_ & _ & _ & H)|(_ & p & q & _ & _ & _ & H)]); destruct (H n eq_refl) as [K _]; exact K.
Qed.

(** ** resolve_collision *)
Section Res.
Context {M Loc : Type} (md : model_ops (Sh := Sh) M Loc).

Lemma resolve_inv a b ms sc t ms' rep : flag_only md -> a <> b -> resolve_collision sh md a b ms sc t = (ms', Ok (Some rep)) ->
  exists ma mb va wa vb wb P nrm la lb fa fb,
    aget Nat.eqb ms a = Some ma /\ aget Nat.eqb ms b = Some mb /\ md_velocity md ma = (va, wa) /\ md_velocity md mb = (vb, wb) /\
    compute_impact_geometry sh (md_footprint md ma) (md_footprint md mb) = Ok (nrm, P) /\
    rep_point rep = Some P /\ rep_normal rep = nrm /\ rep_time rep = t /\
    impact_locations_from_polygons sh md ma (md_footprint md mb) = Ok la /\ impact_locations_from_polygons sh md mb (md_footprint md ma) = Ok lb /\
    (sc = None -> fa = false /\ fb = false) /\
    (forall net, sc = Some net -> [(a, fa); (b, fb)] = check_who_is_at_fault [(a, md_pose md ma); (b, md_pose md mb)] P net) /\
    let ra := vsub P (cog md ma) in let rb := vsub P (cog md mb) in
    let rel := vsub (velocity_of_P_given_A va wa ra) (velocity_of_P_given_A vb wb rb) in
    let ga := md_geometry md ma in let gb := md_geometry md mb in
    let delta v_after v m := match v_after with None => None | Some (v', _) => osub (kinetic_energy v' m) (kinetic_energy v m) end in
    (forall n, nrm = Some n -> 0 <= vdot rel n) /\
    exists aa ab, rep_players rep = [(a, Some (mkPR la fa (md_footprint md ma) (va, wa) aa (delta aa va (g_m ga)))); (b, Some (mkPR lb fb (md_footprint md mb) (vb, wb) ab (delta ab vb (g_m gb))))] /\
      ms' = aset Nat.eqb (aset Nat.eqb (aset Nat.eqb (aset Nat.eqb ms a (md_set_collided md ma)) b (md_set_collided md mb)) a (md_set_velocity md (md_set_collided md ma) aa)) b (md_set_velocity md (md_set_collided md mb) ab) /\
      (nrm = None -> aa = None /\ ab = None) /\
      forall n, nrm = Some n -> let j := compute_impulse_response n rel ra rb ga gb in
        aa = Some (velocity_after_collision n va (g_m ga) j, rot_velocity_after_collision ra n wa (g_Iz ga) j) /\
        ab = Some (velocity_after_collision (vneg n) vb (g_m gb) j, rot_velocity_after_collision rb (vneg n) wb (g_Iz gb) j).
Proof.
  intros Fl Hab H. unfold resolve_collision in H.
  destruct (agetE Nat.eqb ms a) as [ma|] eqn:Ea; [|discriminate]. apply agetE_Ok in Ea.
  destruct (agetE Nat.eqb ms b) as [mb|] eqn:Eb; [|discriminate]. apply agetE_Ok in Eb.
  destruct (compute_impact_geometry sh (md_footprint md ma) (md_footprint md mb)) as [[nrm P]|] eqn:Eg; [|discriminate].
  destruct (md_velocity md ma) as [va wa] eqn:Va. destruct (md_velocity md mb) as [vb wb] eqn:Vb. cbv zeta in H.
  fold (cog md ma) in H. fold (cog md mb) in H.
  set (ra := vsub P (cog md ma)) in *. set (rb := vsub P (cog md mb)) in *.
  set (rel := vsub (velocity_of_P_given_A va wa ra) (velocity_of_P_given_A vb wb rb)) in *.
  assert (Sep : match nrm with None => false | Some n => if Rlt_dec (vdot rel n) 0 then true else false end = false).
  { destruct nrm as [n|]; [|reflexivity]. destruct (Rlt_dec (vdot rel n) 0); [discriminate|reflexivity]. }
  rewrite Sep in H. destruct (Fl ma) as (F1 & F2 & F3 & F4 & F5). destruct (Fl mb) as (G1 & G2 & G3 & G4 & G5).
  unfold impact_locations_from_polygons in H. rewrite F2, G2 in H.
  fold (impact_locations_from_polygons sh md ma (md_footprint md mb)) in H. fold (impact_locations_from_polygons sh md mb (md_footprint md ma)) in H.
  destruct (impact_locations_from_polygons sh md ma (md_footprint md mb)) as [la|] eqn:La; [|discriminate].
  destruct (impact_locations_from_polygons sh md mb (md_footprint md ma)) as [lb|] eqn:Lb; [|discriminate].
  rewrite F3, G3, F5, G5 in H.
  destruct (match sc with None => Ok (false, false) | Some net => _ end) as [[fa fb]|] eqn:Ef; [|discriminate].
  injection H as <- <-.
  exists ma, mb, va, wa, vb, wb, P, nrm, la, lb, fa, fb. cbn [rep_point rep_normal rep_time rep_players].
  split; [exact Ea|]. split; [exact Eb|]. split; [exact Va|]. split; [exact Vb|]. split; [exact Eg|]. split; [reflexivity|]. split; [reflexivity|]. split; [reflexivity|].
  split; [exact La|]. split; [exact Lb|]. split.
  { intros ->. injection Ef as <- <-. auto. }
  split.
  { intros net ->. unfold agetE, check_who_is_at_fault in Ef. cbn [map fst snd] in Ef. rewrite !aget_cons in Ef. rewrite !Nat.eqb_refl in Ef.
    assert (K : (a =? b)%nat = false) by (apply Nat.eqb_neq; exact Hab). rewrite K in Ef. injection Ef as <- <-. reflexivity. }
  cbv zeta. fold ra rb rel. split.
  { intros n ->. destruct (Rlt_dec (vdot rel n) 0); [discriminate|lra]. }
  eexists; eexists. split; [reflexivity|]. split; [reflexivity|]. destruct nrm as [n|]; cbn [option_map fst snd].
  - split; [discriminate|]. intros n' [= <-]. split; reflexivity.
  - split; [auto|]. discriminate.
Qed.

(** The run to completion, forwards. *)
Lemma resolve_fwd a b ms sc t ma mb n P la lb va wa vb wb : flag_only md -> a <> b -> aget Nat.eqb ms a = Some ma -> aget Nat.eqb ms b = Some mb ->
  compute_impact_geometry sh (md_footprint md ma) (md_footprint md mb) = Ok (Some n, P) ->
  md_velocity md ma = (va, wa) -> md_velocity md mb = (vb, wb) ->
  0 <= vdot (vsub (velocity_of_P_given_A va wa (vsub P (cog md ma))) (velocity_of_P_given_A vb wb (vsub P (cog md mb)))) n ->
  impact_locations_from_polygons sh md ma (md_footprint md mb) = Ok la -> impact_locations_from_polygons sh md mb (md_footprint md ma) = Ok lb ->
  exists ms' rep, resolve_collision sh md a b ms sc t = (ms', Ok (Some rep)) /\ rep_normal rep = Some n /\ rep_point rep = Some P.
Proof.
  intros Fl Hab Ea Eb Eg Va Vb Hd La Lb. unfold resolve_collision. rewrite (proj2 (agetE_Ok _ _ _) Ea), (proj2 (agetE_Ok _ _ _) Eb), Eg, Va, Vb. cbv zeta.
  fold (cog md ma). fold (cog md mb). destruct (Rlt_dec _ 0) as [C|_]; [lra|].
  destruct (Fl ma) as (F1 & F2 & F3 & F4 & F5). destruct (Fl mb) as (G1 & G2 & G3 & G4 & G5).
  unfold impact_locations_from_polygons. rewrite F2, G2.
  fold (impact_locations_from_polygons sh md ma (md_footprint md mb)). fold (impact_locations_from_polygons sh md mb (md_footprint md ma)).
  rewrite La, Lb. destruct sc as [net|].
  - unfold agetE, check_who_is_at_fault. cbn [map fst snd]. rewrite !aget_cons, !Nat.eqb_refl. rewrite (proj2 (Nat.eqb_neq a b) Hab).
    eexists; eexists. split; [reflexivity|]. split; reflexivity.
  - eexists; eexists. split; [reflexivity|]. split; reflexivity.
Qed.

Lemma resolve_env_inv ew env a m bs gb t m' rep : flag_only md -> resolve_collision_with_environment sh md ew env a m bs gb t = (m', Ok (Some rep)) ->
  exists va wa P nrm la pb, md_velocity md m = (va, wa) /\
    compute_impact_geometry sh (md_footprint md m) bs = Ok (nrm, P) /\ rep_point rep = Some P /\ rep_normal rep = nrm /\ rep_time rep = t /\
    impact_locations_from_polygons sh md m bs = Ok la /\ (if is_polygon sh bs then Ok bs else to_polygon sh bs) = Ok pb /\
    let ra := vsub P (cog md m) in let rel := velocity_of_P_given_A va wa ra in let ga := md_geometry md m in
    (forall n, nrm = Some n -> 0 <= vdot rel n) /\
    exists aa, rep_players rep = [(a, Some (mkPR la true (md_footprint md m) (va, wa) aa (match aa with None => None | Some (v', _) => osub (kinetic_energy v' (g_m ga)) (kinetic_energy va (g_m ga)) end)));
                                  (env, Some (mkPR [(ew, pb)] false pb ((0, 0), 0) (Some ((0, 0), 0)) (Some 0)))] /\
      m' = md_set_velocity md (md_set_collided md m) aa /\ (nrm = None -> aa = None) /\
      forall n, nrm = Some n -> let j := compute_impulse_response n rel ra (1, 1) ga gb in
        aa = Some (velocity_after_collision n va (g_m ga) j, rot_velocity_after_collision ra n wa (g_Iz ga) j).
Proof.
  intros Fl H. unfold resolve_collision_with_environment in H.
  destruct (compute_impact_geometry sh (md_footprint md m) bs) as [[nrm P]|] eqn:Eg; [|discriminate].
  destruct (md_velocity md m) as [va wa] eqn:Va. cbv zeta in H. fold (cog md m) in H.
  set (ra := vsub P (cog md m)) in *. set (rel := velocity_of_P_given_A va wa ra) in *.
  assert (Sep : match nrm with None => false | Some n => if Rlt_dec (vdot rel n) 0 then true else false end = false).
  { destruct nrm as [n|]; [|reflexivity]. destruct (Rlt_dec (vdot rel n) 0); [discriminate|reflexivity]. }
  rewrite Sep in H. destruct (Fl m) as (F1 & F2 & F3 & F4 & F5).
  unfold impact_locations_from_polygons in H. rewrite F2 in H. fold (impact_locations_from_polygons sh md m bs) in H.
  destruct (impact_locations_from_polygons sh md m bs) as [la|] eqn:La; [|discriminate]. rewrite F5 in H.
  destruct (if is_polygon sh bs then Ok bs else to_polygon sh bs) as [pb|] eqn:Pb; [|discriminate]. injection H as <- <-.
  exists va, wa, P, nrm, la, pb. cbn [rep_point rep_normal rep_time rep_players].
  split; [reflexivity|]. split; [reflexivity|]. split; [reflexivity|]. split; [reflexivity|]. split; [reflexivity|]. split; [reflexivity|]. split; [reflexivity|].
  cbv zeta. fold ra rel. split.
  { intros n ->. destruct (Rlt_dec (vdot rel n) 0); [discriminate|lra]. }
  eexists. split; [reflexivity|]. split; [reflexivity|]. destruct nrm as [n|].
  - split; [discriminate|]. intros n' [= <-]. reflexivity.
  - split; [auto|]. discriminate.
Qed.

(** Two finite bodies: everything in terms of inverse masses. *)
Lemma resolve_bodies a b ms sc t ms' rep ma mb m1 i1 e1 m2 i2 e2 n P va wa vb wb : flag_only md -> a <> b ->
  resolve_collision sh md a b ms sc t = (ms', Ok (Some rep)) ->
  aget Nat.eqb ms a = Some ma -> aget Nat.eqb ms b = Some mb -> solid md ma m1 i1 e1 -> solid md mb m2 i2 e2 ->
  rep_normal rep = Some n -> rep_point rep = Some P -> md_velocity md ma = (va, wa) -> md_velocity md mb = (vb, wb) ->
  let ra := vsub P (cog md ma) in let rb := vsub P (cog md mb) in
  let vn := vdot (vsub (velocity_of_P_given_A va wa ra) (velocity_of_P_given_A vb wb rb)) n in
  let k := / m1 + / m2 + (vcross ra n * vcross ra n * / i1 + vcross rb n * vcross rb n * / i2) in
  let j := - (1 + Rmin e1 e2) * vn / k in
  vdot n n = 1 /\ 0 < k /\ 0 <= vn /\
  exists pa pb, rep_players rep = [(a, Some pa); (b, Some pb)] /\ pr_velocity pa = (va, wa) /\ pr_velocity pb = (vb, wb) /\
    pr_velocity_after pa = Some (vadd va (vscale (j * / m1) n), wa + j * vcross ra n * / i1) /\
    pr_velocity_after pb = Some (vadd vb (vscale (- (j * / m2)) n), wb - j * vcross rb n * / i2) /\
    pr_energy_delta pa = Some (1 / 2 * m1 * vdot (vadd va (vscale (j * / m1) n)) (vadd va (vscale (j * / m1) n)) - 1 / 2 * m1 * vdot va va) /\
    pr_energy_delta pb = Some (1 / 2 * m2 * vdot (vadd vb (vscale (- (j * / m2)) n)) (vadd vb (vscale (- (j * / m2)) n)) - 1 / 2 * m2 * vdot vb vb).
Proof.
  intros Fl Hab H Ea Eb (Sa & Pa1 & Pa2) (Sb & Pb1 & Pb2) Hn HP Va Vb. cbv zeta.
  destruct (resolve_inv a b ms sc t ms' rep Fl Hab H) as (ma' & mb' & va' & wa' & vb' & wb' & P' & nrm & la & lb & fa & fb & I1 & I2 & I3 & I4 & I5 & I6 & I7 & _ & _ & _ & _ & _ & J).
  assert (ma' = ma) as -> by congruence. assert (mb' = mb) as -> by congruence. assert (P' = P) as -> by congruence. assert (nrm = Some n) as -> by congruence.
  rewrite Va in I3. injection I3 as -> ->. rewrite Vb in I4. injection I4 as -> ->. cbv zeta in J. rewrite Sa, Sb in J.
  destruct J as (J1 & aa & ab & J2 & _ & _ & J3). specialize (J1 n eq_refl). specialize (J3 n eq_refl). cbv zeta in J3.
  set (ra := vsub P (cog md ma)) in *. set (rb := vsub P (cog md mb)) in *. set (rel := vsub (velocity_of_P_given_A va' wa' ra) (velocity_of_P_given_A vb' wb' rb)) in *.
  assert (Ia1 : 0 < / m1) by (apply Rinv_0_lt_compat; assumption). assert (Ia2 : 0 < / i1) by (apply Rinv_0_lt_compat; assumption).
  assert (Ib1 : 0 < / m2) by (apply Rinv_0_lt_compat; assumption). assert (Ib2 : 0 < / i2) by (apply Rinv_0_lt_compat; assumption).
  set (k := / m1 + / m2 + (vcross ra n * vcross ra n * / i1 + vcross rb n * vcross rb n * / i2)).
  assert (K : 0 < k).
  { unfold k. assert (0 <= vcross ra n * vcross ra n * / i1) by (apply Rmult_le_pos; [nra|lra]).
    assert (0 <= vcross rb n * vcross rb n * / i2) by (apply Rmult_le_pos; [nra|lra]). lra. }
  assert (Ej : compute_impulse_response n rel ra rb (mkG (Fin m1) (Fin i1) e1) (mkG (Fin m2) (Fin i2) e2) = - (1 + Rmin e1 e2) * vdot rel n / k).
  { unfold compute_impulse_response, k. cbn [g_e g_m g_Iz over]. f_equal. unfold Rdiv. rewrite !Rmult_1_l. reflexivity. }
  rewrite Ej in J3. set (j := - (1 + Rmin e1 e2) * vdot rel n / k) in *. cbn [g_m g_Iz] in J3. destruct J3 as [-> ->].
  assert (Q1 : forall v, velocity_after_collision n v (Fin m1) j = vadd v (vscale (j * / m1) n)).
  { intro v. unfold velocity_after_collision, vover, vadd, vscale, over. cbn [fst snd]. f_equal; unfold Rdiv; ring. }
  assert (Q2 : forall v, velocity_after_collision (vneg n) v (Fin m2) j = vadd v (vscale (- (j * / m2)) n)).
  { intro v. unfold velocity_after_collision, vover, vadd, vscale, vneg, over. cbn [fst snd]. f_equal; unfold Rdiv; ring. }
  assert (Q3 : rot_velocity_after_collision ra n wa' (Fin i1) j = wa' + j * vcross ra n * / i1).
  { unfold rot_velocity_after_collision, over, vcross, vscale, Rdiv. cbn [fst snd]. ring. }
  assert (Q4 : rot_velocity_after_collision rb (vneg n) wb' (Fin i2) j = wb' - j * vcross rb n * / i2).
  { unfold rot_velocity_after_collision, over, vcross, vscale, vneg, Rdiv. cbn [fst snd]. ring. }
  rewrite Q1, Q2, Q3, Q4 in J2. cbn [g_m kinetic_energy osub] in J2. rewrite !vnorm_sq in J2.
  split; [exact (impact_normal_unit _ _ _ _ I5)|]. split; [exact K|]. split; [exact J1|].
  eexists; eexists. split; [exact J2|]. cbn [pr_velocity pr_velocity_after pr_energy_delta]. split; [reflexivity|]. split; [reflexivity|]. split; [reflexivity|]. split; [reflexivity|]. split; reflexivity.
Qed.

Lemma contact_P v w c P : contact v w c P = velocity_of_P_given_A v w (vsub P c).
Proof. unfold contact, velocity_of_P_given_A, vadd, vscale, rot90, vsub. cbn [fst snd]. f_equal; ring. Qed.

Lemma two_bodies_inv a b ms sc t ms' rep m1 i1 e1 m2 i2 e2 ca cb n P va vb va' vb' wa wb wa' wb' : flag_only md ->
  two_bodies md sh a b ms sc t ms' rep m1 i1 e1 m2 i2 e2 ca cb n P va vb va' vb' wa wb wa' wb' ->
  let ra := vsub P ca in let rb := vsub P cb in
  let vn := vdot (vsub (velocity_of_P_given_A va wa ra) (velocity_of_P_given_A vb wb rb)) n in
  let k := / m1 + / m2 + (vcross ra n * vcross ra n * / i1 + vcross rb n * vcross rb n * / i2) in
  let j := - (1 + Rmin e1 e2) * vn / k in
  0 < m1 /\ 0 < m2 /\ 0 < i1 /\ 0 < i2 /\ vdot n n = 1 /\ 0 < k /\ 0 <= vn /\
  va' = vadd va (vscale (j * / m1) n) /\ wa' = wa + j * vcross ra n * / i1 /\
  vb' = vadd vb (vscale (- (j * / m2)) n) /\ wb' = wb - j * vcross rb n * / i2 /\
  reported_delta rep a (1 / 2 * m1 * vdot va' va' - 1 / 2 * m1 * vdot va va) /\
  reported_delta rep b (1 / 2 * m2 * vdot vb' vb' - 1 / 2 * m2 * vdot vb vb).
Proof.
  intros Fl (Hab & H & (ma & mb & Ea & Eb & Sa & Sb & Ca & Cb & Va & Vb) & Hn & HP & _ & _ & Aa & Ab). cbv zeta.
  destruct (resolve_bodies a b ms sc t ms' rep ma mb m1 i1 e1 m2 i2 e2 n P va wa vb wb Fl Hab H Ea Eb Sa Sb Hn HP Va Vb) as (N & K & V & pa & pb & E1 & _ & _ & E2 & E3 & E4 & E5).
  rewrite Ca, Cb in *. destruct Sa as (_ & M1 & M2). destruct Sb as (_ & M3 & M4).
  assert (Ga : aget Nat.eqb (rep_players rep) a = Some (Some pa)) by (rewrite E1, aget_cons, Nat.eqb_refl; reflexivity).
  assert (Gb : aget Nat.eqb (rep_players rep) b = Some (Some pb)) by (rewrite E1, !aget_cons, (proj2 (Nat.eqb_neq a b) Hab), Nat.eqb_refl; reflexivity).
  destruct Aa as (pa' & A1 & A2). destruct Ab as (pb' & A3 & A4). assert (pa' = pa) as -> by congruence. assert (pb' = pb) as -> by congruence.
  rewrite E2 in A2. injection A2 as <- <-. rewrite E3 in A4. injection A4 as <- <-.
  split; [exact M1|]. split; [exact M3|]. split; [exact M2|]. split; [exact M4|]. split; [exact N|]. split; [exact K|]. split; [exact V|].
  split; [reflexivity|]. split; [reflexivity|]. split; [reflexivity|]. split; [reflexivity|].
  split; [exists pa; split; [exact Ga|exact E4]|exists pb; split; [exact Gb|exact E5]].
Qed.

(** Against a wall: as if the other body had inverse mass and inertia 0. *)
Lemma against_wall_inv ew env a m bs gb t m' rep m1 i1 e1 ca n P va va' wa wa' : flag_only md ->
  against_wall md sh ew env a m bs gb t m' rep m1 i1 e1 ca n P va va' wa wa' ->
  let ra := vsub P ca in let vn := vdot (velocity_of_P_given_A va wa ra) n in
  let k := / m1 + vcross ra n * vcross ra n * / i1 in let j := - (1 + Rmin e1 (g_e gb)) * vn / k in
  0 < m1 /\ 0 < i1 /\ vdot n n = 1 /\ 0 < k /\ 0 <= vn /\
  va' = vadd va (vscale (j * / m1) n) /\ wa' = wa + j * vcross ra n * / i1 /\ m' = md_set_velocity md (md_set_collided md m) (Some (va', wa')).
Proof.
  intros Fl (Hae & H & (Sa & M1 & M2) & Gm & Gi & Ca & Va & Hn & HP & _ & Aa). cbv zeta.
  destruct (resolve_env_inv ew env a m bs gb t m' rep Fl H) as (va0 & wa0 & P' & nrm & la & pb & I1 & I2 & I3 & I4 & _ & _ & _ & J). cbv zeta in J.
  assert (P' = P) as -> by congruence. assert (nrm = Some n) as -> by congruence. rewrite Va in I1. injection I1 as -> ->.
  destruct J as (J1 & aa & J2 & J3 & _ & J4). specialize (J1 n eq_refl). specialize (J4 n eq_refl). cbv zeta in J4. rewrite Ca, Sa in *. cbn [g_m g_Iz] in J4.
  set (ra := vsub P ca) in *. set (rel := velocity_of_P_given_A va0 wa0 ra) in *.
  assert (Ia1 : 0 < / m1) by (apply Rinv_0_lt_compat; assumption). assert (Ia2 : 0 < / i1) by (apply Rinv_0_lt_compat; assumption).
  set (k := / m1 + vcross ra n * vcross ra n * / i1).
  assert (K : 0 < k). { unfold k. assert (0 <= vcross ra n * vcross ra n * / i1) by (apply Rmult_le_pos; [nra|lra]). lra. }
  assert (Ej : compute_impulse_response n rel ra (1, 1) (mkG (Fin m1) (Fin i1) e1) gb = - (1 + Rmin e1 (g_e gb)) * vdot rel n / k).
  { unfold compute_impulse_response, k. rewrite Gm, Gi. cbn [g_e g_m g_Iz over]. f_equal. unfold Rdiv. ring. }
  rewrite Ej in J4. set (j := - (1 + Rmin e1 (g_e gb)) * vdot rel n / k) in *.
  assert (Q1 : velocity_after_collision n va0 (Fin m1) j = vadd va0 (vscale (j * / m1) n)).
  { unfold velocity_after_collision, vover, vadd, vscale, over. cbn [fst snd]. f_equal; unfold Rdiv; ring. }
  assert (Q3 : rot_velocity_after_collision ra n wa0 (Fin i1) j = wa0 + j * vcross ra n * / i1).
  { unfold rot_velocity_after_collision, over, vcross, vscale, Rdiv. cbn [fst snd]. ring. }
  rewrite Q1, Q3 in J4. destruct Aa as (pa & A1 & A2). rewrite J2 in A1. rewrite aget_cons, Nat.eqb_refl in A1. injection A1 as <-. cbn [pr_velocity_after] in A2.
  rewrite J4 in A2. injection A2 as <- <-.
  split; [exact M1|]. split; [exact M2|]. split; [exact (impact_normal_unit _ _ _ _ I2)|]. split; [exact K|]. split; [exact J1|].
  split; [reflexivity|]. split; [reflexivity|]. rewrite J3, J4. reflexivity.
Qed.
End Res.
End G.

(** ** Combining reports *)
Section Comb.
Context {Sh Loc : Type}.
Implicit Type r : report (Sh := Sh) Loc.

Lemma same_keys_spec (r1 r2 : report (Sh := Sh) Loc) : same_keys (rep_players r1) (rep_players r2) = true <-> same_players r1 r2.
Proof.
  unfold same_keys, same_players, players_of. rewrite andb_true_iff, !forallb_forall. split.
  - intros [A B] p. split; intro H; [specialize (A p H)|specialize (B p H)]; [apply existsb_exists in A as (q & I & E)|apply existsb_exists in B as (q & I & E)]; apply Nat.eqb_eq in E; subst q; exact I.
  - intro H. split; intros p I; apply existsb_exists; exists p; (split; [apply H; exact I|apply Nat.eqb_refl]).
Qed.

Lemma aget_in_keys {V} (l : list (nat * V)) p : In p (map fst l) <-> exists x, aget Nat.eqb l p = Some x.
Proof.
  induction l as [|[k v] l IH]; cbn [map fst In]; [split; [intros []|intros [x H]; discriminate]|].
  rewrite aget_cons. destruct (Nat.eqb_spec k p) as [->|N].
  - split; [intros _; exists v; reflexivity|left; reflexivity].
  - rewrite <- IH. split; [intros [E|E]; [contradiction|exact E]|right; assumption].
Qed.

Lemma combine_players_ok (l : list (nat * option (player_report Loc))) (s : list (nat * option (player_report (Sh := Sh) Loc))) :
  NoDup (map fst l) -> (forall p, In p (map fst l) -> exists pr, aget Nat.eqb l p = Some (Some pr)) -> (forall p, In p (map fst l) -> exists pr, aget Nat.eqb s p = Some (Some pr)) ->
  exists l', combine_players l s = Ok l' /\ map fst l' = map fst l /\
    forall p p1 p2, aget Nat.eqb l p = Some (Some p1) -> aget Nat.eqb s p = Some (Some p2) -> aget Nat.eqb l' p = Some (Some (joined p1 p2)).
Proof.
  induction l as [|[k v] l IH]; intros ND A B.
  - exists []. split; [reflexivity|]. split; [reflexivity|]. discriminate.
  - cbn [map fst] in *. inversion ND as [|? ? Nk ND']; subst.
    destruct (A k (or_introl eq_refl)) as (pr & E). rewrite aget_cons, Nat.eqb_refl in E. injection E as ->.
    destruct (B k (or_introl eq_refl)) as (pr2 & E2).
    destruct IH as (l' & I1 & I2 & I3); [exact ND'| |intros p I; apply B; right; exact I|].
    { intros p I. destruct (A p (or_intror I)) as (q & Q). rewrite aget_cons in Q. destruct (Nat.eqb_spec k p) as [->|_]; [contradiction|]. exists q. exact Q. }
    cbn [combine_players]. unfold agetE. rewrite E2, I1. eexists. split; [reflexivity|]. split; [cbn [map fst]; f_equal; exact I2|].
    intros p p1 p2. rewrite !aget_cons. destruct (Nat.eqb_spec k p) as [<-|_].
    + intros [= <-] H2. rewrite E2 in H2. injection H2 as <-. reflexivity.
    + apply I3.
Qed.

Lemma combine_ok (r1 r2 : report (Sh := Sh) Loc) : complete r1 -> complete r2 -> same_players r1 r2 -> rep_time r1 <= rep_time r2 ->
  exists r, combine_collision_reports r1 r2 = Ok r /\ rep_point r = rep_point r1 /\ rep_normal r = rep_normal r1 /\ rep_time r = rep_time r1 /\
    players_of r = players_of r1 /\ forall p p1 p2, says r1 p p1 -> says r2 p p2 -> says r p (joined p1 p2).
Proof.
  intros [N1 C1] [N2 C2] S T. unfold combine_collision_reports. rewrite (proj2 (same_keys_spec r1 r2) S).
  destruct (Rle_dec _ _) as [_|X]; [|contradiction].
  destruct (combine_players_ok (rep_players r1) (rep_players r2) N1 C1) as (l' & E1 & E2 & E3); [intros p I; apply C2, S, I|].
  rewrite E1. eexists. split; [reflexivity|]. cbn [rep_point rep_normal rep_time players_of rep_players]. split; [reflexivity|]. split; [reflexivity|]. split; [reflexivity|].
  split; [exact E2|exact E3].
Qed.

Lemma combine_complete (r1 r2 r : report (Sh := Sh) Loc) : complete r1 -> complete r2 -> same_players r1 r2 -> players_of r = players_of r1 ->
  (forall p p1 p2, says r1 p p1 -> says r2 p p2 -> says r p (joined p1 p2)) -> complete r /\ same_players r r1.
Proof.
  intros [N1 C1] [N2 C2] S E F. split; [split|].
  - rewrite E. exact N1.
  - intros p I. rewrite E in I. destruct (C1 p I) as (p1 & Q1). destruct (C2 p (proj1 (S p) I)) as (p2 & Q2). eexists. exact (F p p1 p2 Q1 Q2).
  - intro p. rewrite E. reflexivity.
Qed.

(** A report is determined by what it says. *)
Lemma report_ext (r r' : report (Sh := Sh) Loc) : complete r -> players_of r' = players_of r -> rep_point r' = rep_point r -> rep_normal r' = rep_normal r -> rep_time r' = rep_time r ->
  (forall p pr, says r p pr -> says r' p pr) -> r' = r.
Proof.
  destruct r as [l P N t], r' as [l' P' N' t']. unfold complete, players_of, says. cbn [rep_players rep_point rep_normal rep_time].
  intros [ND C] E -> -> -> H. f_equal. revert l' E H. induction l as [|[k v] l IH]; intros l' E H.
  - destruct l'; [reflexivity|discriminate].
  - destruct l' as [|[k' v'] l']; [discriminate|]. cbn [map fst] in *. injection E as -> E. inversion ND as [|? ? Nk ND']; subst.
    destruct (C k (or_introl eq_refl)) as (pr & Q). rewrite aget_cons, Nat.eqb_refl in Q. injection Q as ->.
    specialize (H k pr) as Hk. rewrite !aget_cons, Nat.eqb_refl in Hk. specialize (Hk eq_refl). injection Hk as ->. f_equal.
    apply IH; [exact ND'| |exact E|].
    + intros p I. destruct (C p (or_intror I)) as (q & Q). rewrite aget_cons in Q. destruct (Nat.eqb_spec k p) as [->|_]; [contradiction|]. exists q. exact Q.
    + intros p pr' Q. specialize (H p pr'). rewrite !aget_cons in H. destruct (Nat.eqb_spec k p) as [->|_]; [|exact (H Q)].
      exfalso. apply Nk. apply aget_in_keys. eexists. exact Q.
Qed.

Lemma joined_assoc (a b c : player_report (Sh := Sh) Loc) : joined (joined a b) c = joined a (joined b c).
Proof.
  unfold joined. cbn [pr_locations pr_at_fault pr_footprint pr_velocity pr_velocity_after pr_energy_delta]. rewrite app_assoc. f_equal.
  destruct (pr_energy_delta a), (pr_energy_delta b), (pr_energy_delta c); try reflexivity. f_equal. ring.
Qed.

Lemma joined_fold (prs : list (player_report (Sh := Sh) Loc)) (p0 : player_report Loc) :
  let pr := fold_left joined prs p0 in
  pr_velocity pr = pr_velocity p0 /\ pr_at_fault pr = pr_at_fault p0 /\ pr_footprint pr = pr_footprint p0 /\ pr_velocity_after pr = pr_velocity_after (last prs p0) /\
  pr_locations pr = pr_locations p0 ++ flat_map pr_locations prs /\
  pr_energy_delta pr = fold_left (fun acc y => match acc, pr_energy_delta y with Some e1, Some e2 => Some (e1 + e2) | _, _ => None end) prs (pr_energy_delta p0).
Proof.
  revert p0. induction prs as [|x l IH]; intro p0; cbv zeta.
  - cbn [fold_left last flat_map]. rewrite app_nil_r. auto 10.
  - cbn [fold_left flat_map]. destruct (IH (joined p0 x)) as (A & B & C & D & E & F). rewrite A, B, C, D, E, F. cbn [joined pr_velocity pr_at_fault pr_footprint pr_locations pr_energy_delta].
    split; [reflexivity|]. split; [reflexivity|]. split; [reflexivity|]. split; [|split; [symmetry; apply app_assoc|reflexivity]].
    destruct l as [|y l]; [reflexivity|]. change (last (x :: y :: l) p0) with (last (y :: l) p0). f_equal. clear. revert y. induction l as [|z l IH]; intro y; [reflexivity|]. exact (IH z).
Qed.
Lemma says_last p (rs : list (report (Sh := Sh) Loc)) prs r0 p0 : Forall2 (fun x y => says x p y) rs prs -> says r0 p p0 -> says (last rs r0) p (last prs p0).
Proof.
  intro H. induction H as [|x y rs prs Hxy H IH]; intro Q; [exact Q|]. specialize (IH Q). destruct H; [exact Hxy|exact IH].
Qed.

Lemma same_players_sym (r1 r2 : report (Sh := Sh) Loc) : same_players r1 r2 -> same_players r2 r1.
Proof. intros H p. symmetry. apply H. Qed.
Lemma same_players_trans (r1 r2 r3 : report (Sh := Sh) Loc) : same_players r1 r2 -> same_players r2 r3 -> same_players r1 r3.
Proof. intros H K p. rewrite (H p). apply K. Qed.
End Comb.
