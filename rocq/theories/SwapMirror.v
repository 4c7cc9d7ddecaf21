(** Collisions in a mirror. *)
From Coq Require Import Reals List Bool Arith Permutation Lra Lia.
From Verif Require Import Base R2 GeoModel CollModel SwapSpec SwapProofs.
Import ListNotations.
Open Scope R_scope.

Ltac vv := unfold flip, vadd, vsub, vneg, vscale, vdot, vcross, rot90, midpoint, translation_from_SE2, flip_pose; cbn [fst snd m00 m01 m02 m10 m11 m12].
Ltac vr := vv; try (apply f_equal2); ring.
Lemma flip_dot v w : vdot (flip v) (flip w) = vdot v w. Proof. vr. Qed.
Lemma flip_cross v w : vcross (flip v) (flip w) = - vcross v w. Proof. vr. Qed.
Lemma flip_norm v : vnorm (flip v) = vnorm v. Proof. unfold vnorm. rewrite flip_dot. reflexivity. Qed.
Lemma flip_add v w : flip (vadd v w) = vadd (flip v) (flip w). Proof. vr. Qed.
Lemma flip_sub v w : flip (vsub v w) = vsub (flip v) (flip w). Proof. vr. Qed.
Lemma flip_neg v : flip (vneg v) = vneg (flip v). Proof. vr. Qed.
Lemma flip_scale k v : flip (vscale k v) = vscale k (flip v). Proof. vr. Qed.
Lemma flip_rot90 v : rot90 (flip v) = vneg (flip (rot90 v)). Proof. vr. Qed.
Lemma flip_mid v w : midpoint (flip v) (flip w) = flip (midpoint v w). Proof. unfold midpoint; vv. apply f_equal2; field. Qed.
Lemma flip_translation z : translation_from_SE2 (flip_pose z) = flip (translation_from_SE2 z). Proof. vr. Qed.
Lemma flip_over v m : vover (flip v) m = flip (vover v m).
Proof. destruct m; unfold vover, over; vv; apply f_equal2; unfold Rdiv; ring. Qed.
Lemma flip_normalize v : normalize (flip v) = option_map flip (normalize v).
Proof. unfold normalize. rewrite flip_norm. destruct (Req_EM_T (vnorm v) 0); cbn; [reflexivity|]. rewrite flip_scale. reflexivity. Qed.
Lemma flip_velocity_P v w r : velocity_of_P_given_A (flip v) (- w) (flip r) = flip (velocity_of_P_given_A v w r).
Proof. unfold velocity_of_P_given_A. rewrite flip_rot90. vr. Qed.
Lemma sqr_opp x : - x * - x = x * x. Proof. ring. Qed.
Lemma flip_impulse n v ra rb g1 g2 : compute_impulse_response (flip n) (flip v) (flip ra) (flip rb) g1 g2 = compute_impulse_response n v ra rb g1 g2.
Proof. unfold compute_impulse_response. rewrite flip_dot, !flip_cross, !sqr_opp. reflexivity. Qed.
Lemma flip_after n v m j : velocity_after_collision (flip n) (flip v) m j = flip (velocity_after_collision n v m j).
Proof. unfold velocity_after_collision. rewrite <- flip_scale, flip_over, flip_add. reflexivity. Qed.
Lemma over_opp x d : over (- x) d = - over x d.
Proof. destruct d; unfold over, Rdiv; ring. Qed.
Lemma flip_rot_after r n w Iz j : rot_velocity_after_collision (flip r) (flip n) (- w) Iz j = - rot_velocity_after_collision r n w Iz j.
Proof. unfold rot_velocity_after_collision. rewrite <- flip_scale, flip_cross, over_opp. ring. Qed.
Lemma flip_energy v m : kinetic_energy (flip v) m = kinetic_energy v m.
Proof. unfold kinetic_energy. destruct m; [rewrite flip_norm|]; reflexivity. Qed.
Lemma flip_side p q c : side (flip p) (flip q) (flip c) = - side p q c.
Proof. unfold side. vr. Qed.
Lemma flip_nrm p q c : side p q c <> 0 -> nrm (flip p) (flip q) (flip c) = option_map flip (nrm p q c).
Proof.
  intro S. assert (S' : side (flip p) (flip q) (flip c) <> 0) by (rewrite flip_side; lra).
  destruct (nrm_some p q c S) as (n & P & -> & ->). destruct (nrm_some _ _ _ S') as (n' & P' & -> & ->). rewrite flip_side, <- flip_sub, flip_rot90, vnorm_neg, flip_norm.
  assert (E : forall k v, vscale k (vneg (flip v)) = vneg (flip (vscale k v))) by (intros; vr). rewrite E, vneg_vneg.
  destruct (Rlt_dec 0 (side p q c)), (Rlt_dec 0 (- side p q c)); cbn [option_map]; rewrite ?flip_neg; try reflexivity; exfalso; lra.
Qed.
Lemma removelast_map {A B} (f : A -> B) l : removelast (map f l) = map f (removelast l).
Proof. induction l as [|x [|y l] IH]; [reflexivity|reflexivity|]. cbn [map removelast] in *. f_equal. exact IH. Qed.
Lemma flip_vertices i : vertices (flip_isect i) = map flip (vertices i).
Proof. destruct i as [l|l|[l|]|]; cbn; rewrite ?removelast_map; reflexivity. Qed.

Section M.
Context {Sh : Type} (sh : shapely Sh) (H : Sh -> Sh -> Prop) (E : shapely_mirrored sh H).

Lemma crossings_mirror x x' y y' : H x x' -> H y y' -> Permutation (map flip (crossings sh x y)) (crossings sh x' y').
Proof.
  intros Hx Hy. unfold crossings. etransitivity; [|apply filter_perm, same_vertices, (sm_intersection _ _ E x x' y y' Hx Hy)]. rewrite flip_vertices.
  apply eq_ind with (x := map flip (filter (fun p => negb (contains_pt sh x p || contains_pt sh y p)) (vertices (intersection sh x y)))); [reflexivity|].
  induction (vertices (intersection sh x y)) as [|p l IH]; [reflexivity|]. cbn [map filter]. rewrite (sm_contains_pt _ _ E x x' p Hx), (sm_contains_pt _ _ E y y' p Hy). destruct (negb _); cbn [map]; rewrite IH; reflexivity.
Qed.

Lemma geometry_mirror x x' y y' : H x x' -> H y y' -> off_line sh x y ->
  compute_impact_geometry sh x' y' = match compute_impact_geometry sh x y with Ok (n, p) => Ok (option_map flip n, flip p) | Err e => Err e end.
Proof.
  intros Hx Hy O. destruct (contains sh x y) eqn:C.
  - unfold compute_impact_geometry. rewrite (sm_touches _ _ E x x' y y' Hx Hy), (sm_contains _ _ E x x' y y' Hx Hy), C. destruct (touches sh x y); [reflexivity|].
    rewrite (sm_centroid _ _ E x x' Hx), (sm_centroid _ _ E y y' Hy), <- flip_sub, flip_normalize.
    destruct (normalize (vsub (centroid sh y) (centroid sh x))) as [n|]; [|reflexivity]. cbn [option_map]. rewrite flip_dot. destruct (Rlt_dec _ 0); cbn [option_map]; rewrite ?flip_neg; reflexivity.
  - assert (C' : contains sh x' y' = false) by (rewrite (sm_contains _ _ E x x' y y' Hx Hy); exact C).
    rewrite (geometry_eq sh x y C), (geometry_eq sh x' y' C'), (sm_touches _ _ E x x' y y' Hx Hy). destruct (touches sh x y); [reflexivity|].
    pose proof (sm_intersection _ _ E x x' y y' Hx Hy) as I. pose proof (crossings_mirror x x' y y' Hx Hy) as P.
    assert (T : match crossings sh x' y' with [p; q] => Ok (nrm p q (centroid sh x'), midpoint p q) | _ => Err CollisionException end = match (match crossings sh x y with [p; q] => Ok (nrm p q (centroid sh x), midpoint p q) | _ => Err CollisionException end) with Ok (n, p) => Ok (option_map flip n, flip p) | Err e => Err e end).
    { destruct (perm_two _ _ P) as [(p & q & Ex & Ey)|[Nx Ny]].
      - destruct (crossings sh x y) as [|u [|v [|w l]]] eqn:Ec; try discriminate Ex. cbn in Ex. injection Ex as <- <-. pose proof (O u v Ec) as S. rewrite (sm_centroid _ _ E x x' Hx).
        destruct Ey as [->| ->]; [|rewrite nrm_points by (rewrite flip_side; lra)]; rewrite flip_nrm by exact S; rewrite ?flip_mid, ?(midpoint_swap u v); reflexivity.
      - rewrite map_length in Nx. rewrite !(not_two _ _ Nx), !(not_two _ _ Ny). reflexivity. }
    destruct (intersection sh x y) as [l|l|[l|]|], (intersection sh x' y') as [k|k|[k|]|]; cbn in I; try contradiction; try exact T; reflexivity.
Qed.

Context {M Loc : Type} (md : model_ops (Sh := Sh) M Loc) (everywhere : Loc) (Rm : M -> M -> Prop) (so : Loc -> Loc) (Em : models_mirrored H md Rm so).
Lemma filter_two {A} (R : A -> A -> Prop) f g l k : (forall x y, R x y -> g y = f x) -> Forall2 R l k -> Forall2 R (filter f l) (filter g k).
Proof. intros Hr. induction 1 as [|x y l k Hxy Hl IH]; cbn; [constructor|]. rewrite (Hr x y Hxy). destruct (f x); [constructor; assumption|exact IH]. Qed.
Lemma locations_mirror m n y y' : Rm m n -> H y y' ->
  match impact_locations_from_polygons sh md m y, impact_locations_from_polygons sh md n y' with
  | Ok l, Ok k => exists l', Permutation l' k /\ Forall2 (part_mirrored H so) l l'
  | Err e, Err e' => e' = e
  | _, _ => False end.
Proof.
  intros Hm Hy. unfold impact_locations_from_polygons. destruct (mm_mesh _ _ _ _ Em m n Hm) as (l & P & F).
  assert (F' : Forall2 (part_mirrored H so) (filter (fun ls => intersects sh y (snd ls)) (md_mesh md m)) (filter (fun ls => intersects sh y' (snd ls)) l)).
  { apply filter_two; [|exact F]. intros u v [_ Huv]. apply (sm_intersects _ _ E); assumption. }
  pose proof (filter_perm (fun ls => intersects sh y' (snd ls)) _ _ P) as P'.
  destruct (filter _ (md_mesh md m)) as [|u us]; inversion F'; subst.
  - rewrite <- H0 in P'. apply Permutation_nil in P'. rewrite P'. reflexivity.
  - rewrite <- H2 in P'. destruct (filter _ (md_mesh md n)) as [|w ws]; [apply Permutation_sym, Permutation_nil in P'; discriminate|]. eexists. split; [exact P'|]. constructor; assumption.
Qed.

Notation mrel := (models_in_mirror Rm).
Lemma mgetE ms ns k : mrel ms ns -> match agetE Nat.eqb ms k, agetE Nat.eqb ns k with Ok m, Ok n => Rm m n | Err e, Err e' => e' = e | _, _ => False end.
Proof.
  unfold agetE. induction 1 as [|[i m] [j n] ms ns [H1 H2] _ IH]; cbn in *; [reflexivity|]. subst j. destruct (i =? k)%nat; [exact H2|exact IH].
Qed.
Lemma mset ms ns k m n : mrel ms ns -> Rm m n -> mrel (aset Nat.eqb ms k m) (aset Nat.eqb ns k n).
Proof.
  intros H1 Hm. induction H1 as [|[i x] [j y] ms ns [H1 H2] H3 IH]; cbn in *; [constructor; [split; [reflexivity|exact Hm]|constructor]|]. subst j. destruct (i =? k)%nat; constructor; try assumption; split; try reflexivity; assumption.
Qed.
Lemma fault_mirror p q za zb n n' : net_mirrored n n' ->
  forall k, agetE Nat.eqb (check_who_is_at_fault [(p, flip_pose za); (q, flip_pose zb)] (flip k) n') = agetE Nat.eqb (check_who_is_at_fault [(p, za); (q, zb)] k n).
Proof. intros Hn k. unfold check_who_is_at_fault. cbn [map fst snd]. rewrite !Hn. reflexivity. Qed.
Lemma separating_mirror o rel : match option_map flip o with None => false | Some n => if Rlt_dec (vdot (flip rel) n) 0 then true else false end = match o with None => false | Some n => if Rlt_dec (vdot rel n) 0 then true else false end.
Proof. destruct o as [n|]; [|reflexivity]. cbn [option_map]. rewrite flip_dot. reflexivity. Qed.

Lemma resolve_mirror i j ms ns sc sc' time : mrel ms ns -> map_mirrored sc sc' ->
  (forall ma mb, agetE Nat.eqb ms i = Ok ma -> agetE Nat.eqb ms j = Ok mb -> off_line sh (md_footprint md ma) (md_footprint md mb)) ->
  mrel (fst (resolve_collision sh md i j ms sc time)) (fst (resolve_collision sh md i j ns sc' time)) /\
  outcome_mirrored H so (snd (resolve_collision sh md i j ms sc time)) (snd (resolve_collision sh md i j ns sc' time)).
Proof.
  intros Hr Hs Ho. unfold resolve_collision. pose proof (mgetE ms ns i Hr) as Ha. pose proof (mgetE ms ns j Hr) as Hb.
  destruct (agetE Nat.eqb ms i) as [ma|], (agetE Nat.eqb ns i) as [na|]; try contradiction; [|subst; split; [exact Hr|reflexivity]].
  destruct (agetE Nat.eqb ms j) as [mb|], (agetE Nat.eqb ns j) as [nb|]; try contradiction; [|subst; split; [exact Hr|reflexivity]].
  specialize (Ho ma mb eq_refl eq_refl). pose proof (mm_footprint _ _ _ _ Em _ _ Ha) as Fa. pose proof (mm_footprint _ _ _ _ Em _ _ Hb) as Fb.
  rewrite (geometry_mirror _ _ _ _ Fa Fb Ho). destruct (compute_impact_geometry sh (md_footprint md ma) (md_footprint md mb)) as [[o ip]|]; [|split; [exact Hr|reflexivity]].
  rewrite (mm_pose _ _ _ _ Em _ _ Ha), (mm_pose _ _ _ _ Em _ _ Hb), !flip_translation, <- !flip_sub.
  rewrite (mm_velocity _ _ _ _ Em _ _ Ha), (mm_velocity _ _ _ _ Em _ _ Hb). destruct (md_velocity md ma) as [va wa], (md_velocity md mb) as [vb wb]. change (flip_velocity (va, wa)) with (flip va, - wa). change (flip_velocity (vb, wb)) with (flip vb, - wb). cbv beta iota.
  rewrite !flip_velocity_P, <- flip_sub, separating_mirror. set (ra := vsub ip (translation_from_SE2 (md_pose md ma))). set (rb := vsub ip (translation_from_SE2 (md_pose md mb))). set (rel := vsub (velocity_of_P_given_A va wa ra) (velocity_of_P_given_A vb wb rb)).
  destruct (match o with None => false | Some n => if Rlt_dec (vdot rel n) 0 then true else false end); [split; [exact Hr|exact I]|].
  pose proof (mm_collided _ _ _ _ Em _ _ Ha) as Ca. pose proof (mm_collided _ _ _ _ Em _ _ Hb) as Cb.
  pose proof (mset _ _ j _ _ (mset _ _ i _ _ Hr Ca) Cb) as H1.
  pose proof (locations_mirror _ _ _ _ Ca Fb) as La. destruct (impact_locations_from_polygons sh md (md_set_collided md ma) _) as [la|], (impact_locations_from_polygons sh md (md_set_collided md na) _) as [la'|]; try contradiction; [|split; [exact H1|exact La]].
  pose proof (locations_mirror _ _ _ _ Cb Fa) as Lb. destruct (impact_locations_from_polygons sh md (md_set_collided md mb) _) as [lb|], (impact_locations_from_polygons sh md (md_set_collided md nb) _) as [lb'|]; try contradiction; [|split; [exact H1|exact Lb]].
  rewrite (mm_pose _ _ _ _ Em _ _ Ca), (mm_pose _ _ _ _ Em _ _ Cb), (mm_geometry _ _ _ _ Em _ _ Ca), (mm_geometry _ _ _ _ Em _ _ Cb).
  match goal with |- context [match (match sc with None => Ok (false, false) | Some net => @?F net end) with _ => _ end] => set (fa := match sc with None => Ok (false, false) | Some net => F net end) end.
  match goal with |- context [match (match sc' with None => Ok (false, false) | Some net => @?F net end) with _ => _ end] => assert (Ef : match sc' with None => Ok (false, false) | Some net => F net end = fa) end.
  { unfold fa. destruct sc as [n|], sc' as [n'|]; cbn in Hs; try contradiction; [|reflexivity]. cbv beta zeta. rewrite !(fault_mirror i j _ _ n n' Hs). reflexivity. }
  rewrite Ef. destruct fa as [[f1 f2]|]; [|split; [exact H1|reflexivity]]. clear Ef.
  set (after := match o with None => None | Some n => _ end).
  match goal with |- context [option_map fst ?x] => match x with after => fail 1 | _ => replace x with (option_map (fun p => (flip_velocity (fst p), flip_velocity (snd p))) after) end end.
  2:{ unfold after. destruct o as [n|]; [|reflexivity]. unfold flip_velocity. cbn [option_map fst snd]. rewrite <- !flip_neg, !flip_impulse, !flip_after, !flip_rot_after. reflexivity. }
  destruct after as [[[va' wa'] [vb' wb']]|]; cbn [option_map fst snd].
  - split; [apply mset; [apply mset; [exact H1|]|]; [exact (mm_set_velocity _ _ _ _ Em _ _ (Some (va', wa')) Ca)|exact (mm_set_velocity _ _ _ _ Em _ _ (Some (vb', wb')) Cb)]|].
    unfold flip_velocity. cbn [fst snd]. rewrite !flip_energy. split; [|auto]. constructor; [|constructor; [|constructor]]; (split; [reflexivity|]); cbn; repeat split; assumption.
  - split; [apply mset; [apply mset; [exact H1|]|]; [exact (mm_set_velocity _ _ _ _ Em _ _ None Ca)|exact (mm_set_velocity _ _ _ _ Em _ _ None Cb)]|].
    split; [|auto]. constructor; [|constructor; [|constructor]]; (split; [reflexivity|]); cbn; repeat split; assumption.
Qed.

Lemma resolve_env_mirror env i m n s s' g time : Rm m n -> H s s' -> g_Iz g = Inf -> so everywhere = everywhere -> off_line sh (md_footprint md m) s ->
  Rm (fst (resolve_collision_with_environment sh md everywhere env i m s g time)) (fst (resolve_collision_with_environment sh md everywhere env i n s' g time)) /\
  outcome_mirrored H so (snd (resolve_collision_with_environment sh md everywhere env i m s g time)) (snd (resolve_collision_with_environment sh md everywhere env i n s' g time)).
Proof.
  intros Hm Hs Hg He Ho. unfold resolve_collision_with_environment. pose proof (mm_footprint _ _ _ _ Em _ _ Hm) as Fm.
  rewrite (geometry_mirror _ _ _ _ Fm Hs Ho). destruct (compute_impact_geometry sh (md_footprint md m) s) as [[o ip]|]; [|split; [exact Hm|reflexivity]].
  rewrite (mm_pose _ _ _ _ Em _ _ Hm), !flip_translation, <- !flip_sub.
  rewrite (mm_velocity _ _ _ _ Em _ _ Hm). destruct (md_velocity md m) as [va wa]. change (flip_velocity (va, wa)) with (flip va, - wa). cbv beta iota.
  rewrite !flip_velocity_P, separating_mirror. set (ra := vsub ip (translation_from_SE2 (md_pose md m))). set (rel := velocity_of_P_given_A va wa ra).
  destruct (match o with None => false | Some n => if Rlt_dec (vdot rel n) 0 then true else false end); [split; [exact Hm|exact I]|].
  pose proof (mm_collided _ _ _ _ Em _ _ Hm) as Ca.
  pose proof (locations_mirror _ _ _ _ Ca Hs) as La. destruct (impact_locations_from_polygons sh md (md_set_collided md m) _) as [la|], (impact_locations_from_polygons sh md (md_set_collided md n) _) as [la'|]; try contradiction; [|split; [exact Ca|exact La]].
  rewrite (mm_geometry _ _ _ _ Em _ _ Ca), (sm_is_polygon _ _ E _ _ Hs).
  set (after := match o with None => None | Some n => _ end).
  match goal with |- context [md_set_velocity md (md_set_collided md n) ?x] => replace x with (option_map flip_velocity after) end.
  2:{ unfold after. destruct o as [k|]; [|reflexivity]. unfold flip_velocity. cbn [option_map fst snd].
      assert (Ej : forall q v r, compute_impulse_response (flip k) (flip v) (flip r) q (md_geometry md (md_set_collided md m)) g = compute_impulse_response k v r (1, 1) (md_geometry md (md_set_collided md m)) g).
      { intros q v r. unfold compute_impulse_response. rewrite Hg, flip_dot, flip_cross, sqr_opp. reflexivity. }
      rewrite !Ej, !flip_after, !flip_rot_after. reflexivity. }
  pose proof (mm_set_velocity _ _ _ _ Em _ _ after Ca) as Cs.
  assert (Tp : match (if is_polygon sh s then Ok s else to_polygon sh s), (if is_polygon sh s then Ok s' else to_polygon sh s') with Ok y, Ok y' => H y y' | Err e, Err e' => e' = e | _, _ => False end).
  { destruct (is_polygon sh s); [exact Hs|apply (sm_to_polygon _ _ E _ _ Hs)]. }
  destruct (if is_polygon sh s then Ok s else to_polygon sh s) as [bp|], (if is_polygon sh s then Ok s' else to_polygon sh s') as [bp'|]; try contradiction; [|split; [exact Cs|exact Tp]].
  split; [exact Cs|]. assert (Z : flip (0, 0) = (0, 0)) by (vv; apply f_equal2; ring). assert (Z0 : - 0 = 0) by ring.
  split; [|auto]. constructor; [|constructor; [|constructor]]; (split; [reflexivity|]).
  - cbn. destruct after as [[va' wa']|]; unfold flip_velocity; cbn [option_map fst snd]; rewrite ?flip_energy; repeat split; assumption.
  - assert (Zv : flip_velocity ((0, 0), 0) = ((0, 0), 0)) by (unfold flip_velocity; cbn [fst snd]; rewrite Z, Z0; reflexivity).
    repeat split; try exact Tp; cbn [pr_velocity pr_velocity_after snd option_map]; rewrite ?Zv; try reflexivity.
    exists [(everywhere, bp')]. split; [reflexivity|]. constructor; [|constructor]. split; [symmetry; exact He|exact Tp].
Qed.
End M.
