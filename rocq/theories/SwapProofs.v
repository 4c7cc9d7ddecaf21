(** The impact geometry does not depend on the order of the shapes and is mirrored in a mirror. *)
From Coq Require Import Reals List Bool Arith Permutation Lra Lia.
From Verif Require Import Base R2 GeoModel CollModel SwapSpec.
Import ListNotations.
Open Scope R_scope.

Lemma vneg_vneg v : vneg (vneg v) = v.
Proof. destruct v. unfold vneg. cbn. apply f_equal2; ring. Qed.
Lemma vnorm_neg v : vnorm (vneg v) = vnorm v.
Proof. unfold vnorm, vdot, vneg. cbn. f_equal. ring. Qed.
Lemma vdot_neg v w : vdot v (vneg w) = - vdot v w.
Proof. unfold vdot, vneg. cbn. ring. Qed.
Lemma vdot_negl v w : vdot (vneg v) w = - vdot v w.
Proof. unfold vdot, vneg. cbn. ring. Qed.
Lemma vcross_neg v w : vcross v (vneg w) = - vcross v w.
Proof. unfold vcross, vneg. cbn. ring. Qed.

(** The oriented normal of the line through two points, seen from [c]. *)
Definition nrm (p q c : vec) : option vec :=
  match normalize (rot90 (vsub q p)) with
  | None => None
  | Some n => if Rlt_dec (vdot (vsub (midpoint p q) c) n) 0 then Some (vneg n) else Some n
  end.
Lemma mid_side p q c : vdot (vsub (midpoint p q) c) (rot90 (vsub q p)) = - side p q c.
Proof. unfold midpoint, side, vdot, vsub, rot90, vscale, vadd. cbn. field. Qed.
Lemma norm_scaled k v : vnorm v <> 0 -> normalize v = Some k -> forall r, vdot r k = / vnorm v * vdot r v.
Proof. intros N E r. unfold normalize in E. destruct (Req_EM_T (vnorm v) 0); [contradiction|]. injection E as <-. unfold vdot, vscale. cbn. ring. Qed.
Lemma vnorm_ge v : 0 <= vnorm v. Proof. apply sqrt_pos. Qed.
Lemma nrm_some p q c : side p q c <> 0 -> exists n, 0 < vnorm (rot90 (vsub q p)) /\ n = vscale (/ vnorm (rot90 (vsub q p))) (rot90 (vsub q p)) /\
  nrm p q c = if Rlt_dec 0 (side p q c) then Some (vneg n) else Some n.
Proof.
  intro S. assert (P : vnorm (rot90 (vsub q p)) <> 0).
  { intro B. apply S. assert (D : vdot (rot90 (vsub q p)) (rot90 (vsub q p)) = 0). { unfold vnorm in B. apply sqrt_eq_0 in B; [exact B|]. unfold vdot. nra. }
    unfold vdot, rot90, vsub in D. cbn in D. destruct (Rplus_sqr_eq_0 (fst q - fst p) (snd q - snd p)) as [D1 D2]; [unfold Rsqr; lra|]. unfold side. rewrite D1, D2. ring. }
  pose proof (vnorm_ge (rot90 (vsub q p))) as G. eexists. split; [lra|]. split; [reflexivity|]. unfold nrm, normalize. destruct (Req_EM_T _ 0) as [B|_]; [contradiction|].
  set (k := vnorm (rot90 (vsub q p))) in *. assert (E : vdot (vsub (midpoint p q) c) (vscale (/ k) (rot90 (vsub q p))) = - (/ k * side p q c)).
  { rewrite <- Ropp_mult_distr_r_reverse, <- mid_side. unfold vdot, vscale. cbn. ring. }
  rewrite E. assert (0 < / k) by (apply Rinv_0_lt_compat; lra). destruct (Rlt_dec 0 (side p q c)) as [L|L], (Rlt_dec (- (/ k * side p q c)) 0) as [L'|L']; try reflexivity; exfalso; nra.
Qed.
Lemma rot90_flipped p q : rot90 (vsub p q) = vneg (rot90 (vsub q p)).
Proof. unfold rot90, vsub, vneg. cbn. apply f_equal2; ring. Qed.
Lemma side_swap p q c : side q p c = - side p q c.
Proof. unfold side. ring. Qed.
(** The order of the two points does not matter. *)
Lemma nrm_points p q c : side p q c <> 0 -> nrm q p c = nrm p q c.
Proof.
  intro S. assert (S' : side q p c <> 0) by (rewrite side_swap; lra).
  destruct (nrm_some p q c S) as (n & P & -> & ->). destruct (nrm_some q p c S') as (n' & P' & -> & ->). rewrite side_swap, rot90_flipped, vnorm_neg.
  assert (E : forall k v, vscale k (vneg v) = vneg (vscale k v)) by (intros k v; unfold vscale, vneg; cbn; apply f_equal2; ring). rewrite E, vneg_vneg.
  destruct (Rlt_dec 0 (side p q c)), (Rlt_dec 0 (- side p q c)); try reflexivity; exfalso; lra.
Qed.
(** Seen from the other side it points the other way. *)
Lemma nrm_sides p q c d : side p q c * side p q d < 0 -> exists n, nrm p q c = Some n /\ nrm p q d = Some (vneg n).
Proof.
  intro S. assert (S1 : side p q c <> 0) by nra. assert (S2 : side p q d <> 0) by nra.
  destruct (nrm_some p q c S1) as (n & P & E & ->). destruct (nrm_some p q d S2) as (n' & P' & E' & ->). subst n'. rewrite <- E.
  destruct (Rlt_dec 0 (side p q c)), (Rlt_dec 0 (side p q d)); try (exfalso; nra); eexists; split; try reflexivity. rewrite vneg_vneg. reflexivity.
Qed.
Lemma midpoint_swap p q : midpoint q p = midpoint p q.
Proof. unfold midpoint, vscale, vadd. cbn. apply f_equal2; ring. Qed.

Section G.
Context {Sh : Type} (sh : shapely Sh).
Lemma find_crossings x y : find_intersection_points sh x y =
  match intersection sh x y with IMulti None => Err PyAttributeError | _ => if (length (crossings sh x y) =? 2)%nat then Ok (crossings sh x y) else Err CollisionException end.
Proof. unfold find_intersection_points, crossings, vertices. destruct (intersection sh x y) as [l|l|[l|]|]; reflexivity. Qed.
Lemma geometry_eq x y : contains sh x y = false -> compute_impact_geometry sh x y =
  if touches sh x y then Err PyAssertionError else
  match intersection sh x y with IMulti None => Err PyAttributeError | _ =>
  match crossings sh x y with [p; q] => Ok (nrm p q (centroid sh x), midpoint p q) | _ => Err CollisionException end end.
Proof.
  intro C. unfold compute_impact_geometry. rewrite C, find_crossings. destruct (touches sh x y); [reflexivity|].
  assert (L : forall l : list vec, match (if (length l =? 2)%nat then Ok l else Err CollisionException) with
    | Ok pts => match pts with [first; second] => Ok (match normalize (- snd (vsub second first), fst (vsub second first)) with None => None | Some n => if Rlt_dec (vdot (vsub (midpoint first second) (centroid sh x)) n) 0 then Some (vneg n) else Some n end, midpoint first second) | _ => Err PyValueError end
    | Err e => Err e end = match l with [p; q] => Ok (nrm p q (centroid sh x), midpoint p q) | _ => Err CollisionException end).
  { intros [|p [|q [|r l]]]; reflexivity. }
  destruct (intersection sh x y) as [l|l|[l|]|]; try reflexivity; apply L.
Qed.
Lemma filter_perm {A} (f : A -> bool) l k : Permutation l k -> Permutation (filter f l) (filter f k).
Proof. induction 1 as [|x l k P IH|x y l|l k j P IH P' IH']; cbn; [constructor| | |eapply Permutation_trans; eassumption]; [destruct (f x); auto|destruct (f x), (f y); auto; constructor]. Qed.
Lemma same_vertices i j : same_isect i j -> Permutation (vertices i) (vertices j).
Proof. destruct i as [l|l|[l|]|], j as [k|k|[k|]|]; cbn; try contradiction; auto. Qed.
Lemma perm_two {A} (l k : list A) : Permutation l k -> (exists p q, l = [p; q] /\ (k = [p; q] \/ k = [q; p])) \/ (length l <> 2 /\ length k <> 2)%nat.
Proof.
  intro P. pose proof (Permutation_length P) as L. destruct l as [|p [|q [|r l]]]; try (right; rewrite <- L; cbn; lia).
  left. exists p, q. split; [reflexivity|]. apply Permutation_length_2_inv in P. exact P.
Qed.
Lemma not_two (l : list vec) (F : vec -> vec -> result (option vec * vec)) : (length l <> 2)%nat -> match l with [p; q] => F p q | _ => Err CollisionException end = Err CollisionException.
Proof. destruct l as [|p [|q [|r l]]]; cbn; intro; try reflexivity; lia. Qed.
Lemma multi_none i j : same_isect i j -> forall (A : Type) (e v w : A), v = w -> match i with IMulti None => e | _ => v end = match j with IMulti None => e | _ => w end.
Proof. destruct i as [l|l|[l|]|], j as [k|k|[k|]|]; cbn; try contradiction; auto. Qed.

(** The other order: same point, opposite normal. *)
Lemma geometry_swap x y : even_handed sh -> face_to_face sh x y ->
  match compute_impact_geometry sh x y with
  | Ok (o, p) => exists n, o = Some n /\ compute_impact_geometry sh y x = Ok (Some (vneg n), p)
  | Err e => compute_impact_geometry sh y x = Err e
  end.
Proof.
  intros E (C1 & C2 & F). rewrite (geometry_eq x y C1), (geometry_eq y x C2), (eh_touches _ E y x). destruct (touches sh x y); [reflexivity|].
  pose proof (eh_intersection _ E x y) as I. assert (P : Permutation (crossings sh x y) (crossings sh y x)).
  { unfold crossings. etransitivity; [apply filter_perm, same_vertices, I|]. apply eq_ind with (x := filter (fun p => negb (contains_pt sh x p || contains_pt sh y p)) (vertices (intersection sh y x))); [reflexivity|]. apply filter_ext. intro p. rewrite orb_comm. reflexivity. }
  destruct (perm_two _ _ P) as [(p & q & Ex & Ey)|[Nx Ny]].
  - assert (S := F p q Ex). rewrite Ex. destruct (nrm_sides p q _ _ S) as (n & N1 & N2). rewrite N1.
    assert (Ty : match crossings sh y x with [p; q] => Ok (nrm p q (centroid sh y), midpoint p q) | _ => Err CollisionException end = Ok (Some (vneg n), midpoint p q)).
    { destruct Ey as [->| ->]; [rewrite N2; reflexivity|]. rewrite nrm_points, N2, midpoint_swap; [reflexivity|]. intro B. rewrite B, Rmult_0_r in S. lra. }
    rewrite Ty. destruct (intersection sh x y) as [l|l|[l|]|], (intersection sh y x) as [k|k|[k|]|]; cbn in I; try contradiction; try (exists n; split; reflexivity); reflexivity.
  - rewrite !(not_two _ _ Nx), !(not_two _ _ Ny). destruct (intersection sh x y) as [l|l|[l|]|], (intersection sh y x) as [k|k|[k|]|]; cbn in I; try contradiction; reflexivity.
Qed.

Lemma impulse_swap n rel r1 r2 g1 g2 : compute_impulse_response (vneg n) (vneg rel) r2 r1 g2 g1 = compute_impulse_response n rel r1 r2 g1 g2.
Proof.
  unfold compute_impulse_response. rewrite vdot_neg, vdot_negl, !vcross_neg, Ropp_involutive, (Rmin_comm (g_e g2)).
  assert (S : forall x, - x * - x = x * x) by (intro; ring). rewrite !S. rewrite (Rplus_comm (over 1 (g_m g2))), (Rplus_comm (over (vcross r2 n * vcross r2 n) (g_Iz g2))). reflexivity.
Qed.

Lemma aset_swap {V} (d : list (nat * V)) i j u v : i <> j -> aget Nat.eqb d i <> None -> aget Nat.eqb d j <> None -> aset Nat.eqb (aset Nat.eqb d i u) j v = aset Nat.eqb (aset Nat.eqb d j v) i u.
Proof.
  intros N. induction d as [|[k w] d IH]; cbn; [congruence|]. intros Hi Hj.
  destruct (Nat.eqb_spec k i) as [E1|E1], (Nat.eqb_spec k j) as [E2|E2]; cbn; try congruence.
  - destruct (Nat.eqb_spec k j) as [B|_]; [congruence|]. destruct (Nat.eqb_spec k i) as [_|B]; [reflexivity|congruence].
  - destruct (Nat.eqb_spec k i) as [B|_]; [congruence|]. destruct (Nat.eqb_spec k j) as [_|B]; [reflexivity|congruence].
  - destruct (Nat.eqb_spec k j) as [B|_]; [congruence|]. destruct (Nat.eqb_spec k i) as [B|_]; [congruence|]. rewrite IH; auto.
Qed.
Lemma aset_has {V} (d : list (nat * V)) i k v : aget Nat.eqb d i <> None -> aget Nat.eqb (aset Nat.eqb d k v) i <> None.
Proof.
  induction d as [|[m w] d IH]; cbn; [congruence|]. intro Hi. destruct (Nat.eqb_spec m k) as [E1|E1]; cbn; destruct (Nat.eqb_spec m i) as [E2|E2]; try congruence; auto.
Qed.

Context {M Loc : Type} (md : model_ops (Sh := Sh) M Loc).
Lemma fault_swap i j za zb p n : i <> j ->
  (forall k, agetE Nat.eqb (check_who_is_at_fault [(j, zb); (i, za)] p n) k = agetE Nat.eqb (check_who_is_at_fault [(i, za); (j, zb)] p n) k).
Proof.
  intros N k. unfold check_who_is_at_fault, agetE. cbn [map fst snd aget]. destruct (Nat.eqb_spec j k) as [E1|E1], (Nat.eqb_spec i k) as [E2|E2]; try reflexivity. congruence.
Qed.
Lemma faults_ok i j za zb p n : i <> j -> exists fa fb, agetE Nat.eqb (check_who_is_at_fault [(i, za); (j, zb)] p n) i = Ok fa /\ agetE Nat.eqb (check_who_is_at_fault [(i, za); (j, zb)] p n) j = Ok fb.
Proof.
  intro N. unfold check_who_is_at_fault, agetE. cbn [map fst snd aget]. rewrite !Nat.eqb_refl. destruct (Nat.eqb_spec i j) as [E|_]; [congruence|]. eauto.
Qed.
Lemma locations_err m y e : impact_locations_from_polygons sh md m y = Err e -> e = CollisionException.
Proof. unfold impact_locations_from_polygons. destruct (filter _ _); [congruence|discriminate]. Qed.

Lemma resolve_swap i j ms sc time ma mb : i <> j -> even_handed sh -> aget Nat.eqb ms i = Some ma -> aget Nat.eqb ms j = Some mb -> face_to_face sh (md_footprint md ma) (md_footprint md mb) ->
  resolve_collision sh md j i ms sc time = (fst (resolve_collision sh md i j ms sc time), swapped_outcome (snd (resolve_collision sh md i j ms sc time))).
Proof.
  intros N E Ga Gb F. unfold resolve_collision, agetE. rewrite Ga, Gb.
  pose proof (geometry_swap _ _ E F) as G. destruct (compute_impact_geometry sh (md_footprint md ma) (md_footprint md mb)) as [[o ip]|e]; [|rewrite G; reflexivity].
  destruct G as (n & -> & ->).
  destruct (md_velocity md ma) as [va wa], (md_velocity md mb) as [vb wb].
  set (ra := vsub ip (translation_from_SE2 (md_pose md ma))). set (rb := vsub ip (translation_from_SE2 (md_pose md mb))). set (pa := velocity_of_P_given_A va wa ra). set (pb := velocity_of_P_given_A vb wb rb).
  assert (Er : vsub pb pa = vneg (vsub pa pb)) by (unfold vsub, vneg; cbn; apply f_equal2; ring). rewrite Er. set (rel := vsub pa pb).
  rewrite vdot_neg, vdot_negl, Ropp_involutive.
  destruct (Rlt_dec (vdot rel n) 0) as [_|_]; [reflexivity|].
  assert (Hi : aget Nat.eqb ms i <> None) by congruence. assert (Hj : aget Nat.eqb ms j <> None) by congruence.
  rewrite (aset_swap ms j i) by auto. set (ms1 := aset Nat.eqb (aset Nat.eqb ms i (md_set_collided md ma)) j (md_set_collided md mb)).
  destruct (impact_locations_from_polygons sh md (md_set_collided md ma) (md_footprint md mb)) as [la|e1] eqn:E1, (impact_locations_from_polygons sh md (md_set_collided md mb) (md_footprint md ma)) as [lb|e2] eqn:E2;
    [|reflexivity|reflexivity|apply locations_err in E1, E2; subst; reflexivity].
  assert (K : exists fa fb, match sc with None => Ok (false, false) | Some net => match agetE Nat.eqb (check_who_is_at_fault [(i, md_pose md (md_set_collided md ma)); (j, md_pose md (md_set_collided md mb))] ip net) i with Err e => Err e | Ok fa => match agetE Nat.eqb (check_who_is_at_fault [(i, md_pose md (md_set_collided md ma)); (j, md_pose md (md_set_collided md mb))] ip net) j with Err e => Err e | Ok fb => Ok (fa, fb) end end end = Ok (fa, fb) /\
     match sc with None => Ok (false, false) | Some net => match agetE Nat.eqb (check_who_is_at_fault [(j, md_pose md (md_set_collided md mb)); (i, md_pose md (md_set_collided md ma))] ip net) j with Err e => Err e | Ok fa => match agetE Nat.eqb (check_who_is_at_fault [(j, md_pose md (md_set_collided md mb)); (i, md_pose md (md_set_collided md ma))] ip net) i with Err e => Err e | Ok fb => Ok (fa, fb) end end end = Ok (fb, fa)).
  { destruct sc as [net|]; [|exists false, false; split; reflexivity]. rewrite !(fault_swap i j) by exact N. destruct (faults_ok i j (md_pose md (md_set_collided md ma)) (md_pose md (md_set_collided md mb)) ip net N) as (fa & fb & -> & ->). exists fa, fb. split; reflexivity. }
  destruct K as (fa & fb & K1 & K2). unfold agetE in K1, K2. rewrite K1, K2. clear K1 K2.
  rewrite impulse_swap, vneg_vneg. cbn [option_map fst snd swapped_outcome swapped rep_players rep_point rep_normal rep_time rev app].
  rewrite (aset_swap ms1 j i) by (auto; unfold ms1; repeat apply aset_has; assumption). reflexivity.
Qed.
End G.
