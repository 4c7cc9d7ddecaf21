(** Collisions are resolved the same everywhere in the plane. *)
From Coq Require Import String Reals List Bool Arith Lra Lia.
From Verif Require Import Base R2 GeoModel CollModel BodySpec PlaceSpec.
Import ListNotations.
Open Scope R_scope.

Section P.
Context (t : vec) (a : R).
Notation T := (there t a). Notation Tu := (turn a).

Lemma cs : cos a * cos a = 1 - sin a * sin a.
Proof. pose proof (sin2_cos2 a) as H. unfold Rsqr in H. lra. Qed.
Ltac vv := unfold there, turn, in_world, vadd, vsub, vneg, vscale, vdot, vcross, rot90, midpoint, translation_from_SE2, there_pose, mmul, SE2_from_translation_angle; cbn [fst snd m00 m01 m02 m10 m11 m12].
Ltac vr := vv; try (apply f_equal2); ring.

Lemma turn_dot v w : vdot (Tu v) (Tu w) = vdot v w.
Proof. vv. ring_simplify. replace (cos a ^ 2) with (1 - sin a * sin a) by (rewrite <- cs; ring). ring. Qed.
Lemma turn_cross v w : vcross (Tu v) (Tu w) = vcross v w.
Proof. vv. ring_simplify. replace (cos a ^ 2) with (1 - sin a * sin a) by (rewrite <- cs; ring). ring. Qed.
Lemma turn_norm v : vnorm (Tu v) = vnorm v.
Proof. unfold vnorm. rewrite turn_dot. reflexivity. Qed.
Lemma turn_add v w : Tu (vadd v w) = vadd (Tu v) (Tu w). Proof. vr. Qed.
Lemma turn_sub v w : Tu (vsub v w) = vsub (Tu v) (Tu w). Proof. vr. Qed.
Lemma turn_neg v : Tu (vneg v) = vneg (Tu v). Proof. vr. Qed.
Lemma turn_scale k v : Tu (vscale k v) = vscale k (Tu v). Proof. vr. Qed.
Lemma turn_rot90 v : Tu (rot90 v) = rot90 (Tu v). Proof. vr. Qed.
Lemma there_sub v w : vsub (T v) (T w) = Tu (vsub v w). Proof. vr. Qed.
Lemma there_mid v w : midpoint (T v) (T w) = T (midpoint v w). Proof. unfold midpoint; vv. apply f_equal2; field. Qed.
Lemma there_translation z : translation_from_SE2 (there_pose t a z) = T (translation_from_SE2 z). Proof. vr. Qed.
Lemma turn_over v m : vover (Tu v) m = Tu (vover v m).
Proof. destruct m; unfold vover, over; vv; apply f_equal2; unfold Rdiv; ring. Qed.
Lemma turn_normalize v : normalize (Tu v) = option_map Tu (normalize v).
Proof. unfold normalize. rewrite turn_norm. destruct (Req_EM_T (vnorm v) 0); cbn; [reflexivity|]. rewrite turn_scale. reflexivity. Qed.
Lemma turn_velocity_P v w r : velocity_of_P_given_A (Tu v) w (Tu r) = Tu (velocity_of_P_given_A v w r).
Proof. unfold velocity_of_P_given_A. rewrite turn_add, turn_scale, turn_rot90. reflexivity. Qed.
Lemma turn_impulse n v ra rb g1 g2 : compute_impulse_response (Tu n) (Tu v) (Tu ra) (Tu rb) g1 g2 = compute_impulse_response n v ra rb g1 g2.
Proof. unfold compute_impulse_response. rewrite turn_dot, !turn_cross. reflexivity. Qed.
Lemma turn_after n v m j : velocity_after_collision (Tu n) (Tu v) m j = Tu (velocity_after_collision n v m j).
Proof. unfold velocity_after_collision. rewrite <- turn_scale, turn_over, turn_add. reflexivity. Qed.
Lemma turn_rot_after r n w Iz j : rot_velocity_after_collision (Tu r) (Tu n) w Iz j = rot_velocity_after_collision r n w Iz j.
Proof. unfold rot_velocity_after_collision. rewrite <- turn_scale, turn_cross. reflexivity. Qed.
Lemma turn_energy v m : kinetic_energy (Tu v) m = kinetic_energy v m.
Proof. unfold kinetic_energy. destruct m; [rewrite turn_norm|]; reflexivity. Qed.

Context {Sh : Type} (h : Sh -> Sh) (sh : shapely Sh) (E : shapely_everywhere t a h sh).

Lemma removelast_map {A B} (f : A -> B) l : removelast (map f l) = map f (removelast l).
Proof. induction l as [|x [|y l] IH]; [reflexivity|reflexivity|]. cbn [map removelast] in *. f_equal. exact IH. Qed.

Lemma find_there x y : find_intersection_points sh (h x) (h y) = match find_intersection_points sh x y with Ok l => Ok (map T l) | Err e => Err e end.
Proof.
  unfold find_intersection_points. rewrite (se_intersection _ _ _ _ E).
  assert (Fl : forall l, filter (fun p => negb (contains_pt sh (h x) p || contains_pt sh (h y) p)) (map T l) = map T (filter (fun p => negb (contains_pt sh x p || contains_pt sh y p)) l)).
  { induction l as [|p l IH]; [reflexivity|]. cbn [map filter]. rewrite !(se_contains_pt _ _ _ _ E). destruct (negb _); cbn [map]; rewrite IH; reflexivity. }
  destruct (intersection sh x y) as [l|l|[l|]|]; cbn [isect_there option_map]; try reflexivity; rewrite ?removelast_map, Fl, map_length; destruct (_ =? 2)%nat; reflexivity.
Qed.

Lemma impact_there x y : compute_impact_geometry sh (h x) (h y) = match compute_impact_geometry sh x y with Ok (n, p) => Ok (option_map Tu n, T p) | Err e => Err e end.
Proof.
  unfold compute_impact_geometry. rewrite (se_touches _ _ _ _ E), (se_contains _ _ _ _ E). destruct (touches sh x y); [reflexivity|].
  assert (O : forall o r, match option_map Tu o with None => None | Some n => if Rlt_dec (vdot (Tu r) n) 0 then Some (vneg n) else Some n end = option_map Tu (match o with None => None | Some n => if Rlt_dec (vdot r n) 0 then Some (vneg n) else Some n end)).
  { intros [n|] r; [|reflexivity]. cbn [option_map]. rewrite turn_dot. destruct (Rlt_dec (vdot r n) 0); cbn; rewrite ?turn_neg; reflexivity. }
  destruct (contains sh x y) eqn:Ec.
  - destruct (se_centroid _ _ _ _ E x y (or_introl Ec)) as [-> ->]. rewrite there_sub, turn_normalize, O. reflexivity.
  - rewrite find_there. destruct (find_intersection_points sh x y) as [[|p [|q [|z l]]]|] eqn:Ef; cbn [map]; try reflexivity.
    assert (No : intersection sh x y <> IOther) by (intro Eo; unfold find_intersection_points in Ef; rewrite Eo in Ef; discriminate). destruct (se_centroid _ _ _ _ E x y (or_intror No)) as [-> _].
    rewrite there_mid, !there_sub. change (- snd (Tu (vsub q p)), fst (Tu (vsub q p))) with (rot90 (Tu (vsub q p))). rewrite <- turn_rot90, turn_normalize, O. reflexivity.
Qed.

Context {M Loc : Type} (md : model_ops (Sh := Sh) M Loc) (everywhere : Loc) (Rm : M -> M -> Prop) (Em : models_everywhere t a h md Rm).

Lemma locations_there m n y : Rm m n -> impact_locations_from_polygons sh md n (h y) = match impact_locations_from_polygons sh md m y with Ok l => Ok (map (fun ls => (fst ls, h (snd ls))) l) | Err e => Err e end.
Proof.
  intro H. unfold impact_locations_from_polygons. rewrite (me_mesh _ _ _ _ _ Em _ _ H).
  assert (Fl : forall l : list (Loc * Sh), filter (fun ls => intersects sh (h y) (snd ls)) (map (fun ls => (fst ls, h (snd ls))) l) = map (fun ls => (fst ls, h (snd ls))) (filter (fun ls => intersects sh y (snd ls)) l)).
  { induction l as [|[k z] l IH]; [reflexivity|]. cbn [map filter fst snd]. rewrite (se_intersects _ _ _ _ E). destruct (intersects sh y z); cbn [map fst snd]; rewrite IH; reflexivity. }
  rewrite Fl. destruct (filter _ (md_mesh md m)) as [|x l]; reflexivity.
Qed.

Notation mrel := (models_there Rm).
Lemma mget ms ns k : mrel ms ns -> match aget Nat.eqb ms k, aget Nat.eqb ns k with Some m, Some n => Rm m n | None, None => True | _, _ => False end.
Proof. induction 1 as [|[i m] [j n] ms ns [H1 H2] _ IH]; cbn in *; [exact I|]. subst j. destruct (i =? k)%nat; assumption. Qed.
Lemma mgetE ms ns k : mrel ms ns -> match agetE Nat.eqb ms k, agetE Nat.eqb ns k with Ok m, Ok n => Rm m n | Err e, Err e' => e' = e | _, _ => False end.
Proof. intro H. pose proof (mget ms ns k H) as G. unfold agetE. destruct (aget Nat.eqb ms k), (aget Nat.eqb ns k); try contradiction; auto. Qed.
Lemma mset ms ns k m n : mrel ms ns -> Rm m n -> mrel (aset Nat.eqb ms k m) (aset Nat.eqb ns k n).
Proof.
  intros H Hm. induction H as [|[i x] [j y] ms ns [H1 H2] H IH]; cbn in *; [constructor; [split; [reflexivity|exact Hm]|constructor]|]. subst j. destruct (i =? k)%nat; constructor; try assumption; split; try reflexivity; assumption.
Qed.

Lemma fault_there p q za zb n n' : net_there t a n n' ->
  forall k, agetE Nat.eqb (check_who_is_at_fault [(p, there_pose t a za); (q, there_pose t a zb)] (T k) n') = agetE Nat.eqb (check_who_is_at_fault [(p, za); (q, zb)] k n).
Proof. intros H k. unfold check_who_is_at_fault. cbn [map fst snd]. rewrite !H. reflexivity. Qed.

Lemma resolve_there i j ms ns sc sc' time : mrel ms ns -> map_there t a sc sc' ->
  let '(ms', out) := resolve_collision sh md i j ms sc time in
  let '(ns', out') := resolve_collision sh md i j ns sc' time in
  mrel ms' ns' /\ out' = outcome_there t a h out.
Proof.
  intros H Hs. unfold resolve_collision. pose proof (mgetE ms ns i H) as Ha. pose proof (mgetE ms ns j H) as Hb.
  destruct (agetE Nat.eqb ms i) as [ma|], (agetE Nat.eqb ns i) as [na|]; try contradiction; [|subst; split; [exact H|reflexivity]].
  destruct (agetE Nat.eqb ms j) as [mb|], (agetE Nat.eqb ns j) as [nb|]; try contradiction; [|subst; split; [exact H|reflexivity]].
  rewrite (me_footprint _ _ _ _ _ Em _ _ Ha), (me_footprint _ _ _ _ _ Em _ _ Hb), impact_there. destruct (compute_impact_geometry sh (md_footprint md ma) (md_footprint md mb)) as [[nr ip]|]; [|split; [exact H|reflexivity]].
  rewrite (me_pose _ _ _ _ _ Em _ _ Ha), (me_pose _ _ _ _ _ Em _ _ Hb), !there_translation, !there_sub.
  rewrite (me_velocity _ _ _ _ _ Em _ _ Ha), (me_velocity _ _ _ _ _ Em _ _ Hb). destruct (md_velocity md ma) as [va wa], (md_velocity md mb) as [vb wb]. cbn [turn_velocity fst snd].
  rewrite !turn_velocity_P, <- turn_sub. set (ra := vsub ip _). set (rb := vsub ip _). set (rel := vsub (velocity_of_P_given_A va wa ra) _).
  assert (Es : match option_map Tu nr with None => false | Some n => if Rlt_dec (vdot (Tu rel) n) 0 then true else false end = match nr with None => false | Some n => if Rlt_dec (vdot rel n) 0 then true else false end).
  { destruct nr as [n|]; [|reflexivity]. cbn [option_map]. rewrite turn_dot. reflexivity. }
  rewrite Es. destruct (match nr with None => false | Some n => if Rlt_dec (vdot rel n) 0 then true else false end); [split; [exact H|reflexivity]|].
  pose proof (me_collided _ _ _ _ _ Em _ _ Ha) as Ca. pose proof (me_collided _ _ _ _ _ Em _ _ Hb) as Cb.
  pose proof (mset _ _ j _ _ (mset _ _ i _ _ H Ca) Cb) as H1.
  rewrite (locations_there _ _ _ Ca). destruct (impact_locations_from_polygons sh md (md_set_collided md ma) _) as [la|]; [|split; [exact H1|reflexivity]].
  rewrite (locations_there _ _ _ Cb). destruct (impact_locations_from_polygons sh md (md_set_collided md mb) _) as [lb|]; [|split; [exact H1|reflexivity]].
  rewrite (me_pose _ _ _ _ _ Em _ _ Ca), (me_pose _ _ _ _ _ Em _ _ Cb), (me_geometry _ _ _ _ _ Em _ _ Ca), (me_geometry _ _ _ _ _ Em _ _ Cb).
  match goal with |- context [match (match sc with None => Ok (false, false) | Some net => @?F net end) with _ => _ end] => set (fa := match sc with None => Ok (false, false) | Some net => F net end) end.
  match goal with |- context [match (match sc' with None => Ok (false, false) | Some net => @?F net end) with _ => _ end] => assert (Ef : match sc' with None => Ok (false, false) | Some net => F net end = fa) end.
  { unfold fa. destruct sc as [n|], sc' as [n'|]; cbn in Hs; try contradiction; [|reflexivity]. cbv beta zeta. rewrite !(fault_there i j _ _ n n' Hs). reflexivity. }
  rewrite Ef. destruct fa as [[f1 f2]|]; [|split; [exact H1|reflexivity]]. clear Ef Es.
  set (after := match nr with None => None | Some n => _ end).
  match goal with |- context [option_map fst ?x] => match x with after => fail 1 | _ => replace x with (option_map (fun p => (turn_velocity a (fst p), turn_velocity a (snd p))) after) end end.
  2:{ unfold after. destruct nr as [n|]; [|reflexivity]. cbn [option_map turn_velocity fst snd]. rewrite <- !turn_neg, !turn_impulse, !turn_after, !turn_rot_after. reflexivity. }
  destruct after as [[[va' wa'] [vb' wb']]|]; cbn [option_map fst snd turn_velocity].
  - split; [apply mset; [apply mset; [exact H1|]|]; [exact (me_set_velocity _ _ _ _ _ Em _ _ (Some (va', wa')) Ca)|exact (me_set_velocity _ _ _ _ _ Em _ _ (Some (vb', wb')) Cb)]|]. rewrite !turn_energy. reflexivity.
  - split; [apply mset; [apply mset; [exact H1|]|]; [exact (me_set_velocity _ _ _ _ _ Em _ _ None Ca)|exact (me_set_velocity _ _ _ _ _ Em _ _ None Cb)]|]. reflexivity.
Qed.

(** The contact vector of an obstacle is a fixed one; it is not used if the obstacle does not turn. *)
Lemma resolve_env_there env i m n s g time : Rm m n -> g_Iz g = Inf ->
  let '(m', out) := resolve_collision_with_environment sh md everywhere env i m s g time in
  let '(n', out') := resolve_collision_with_environment sh md everywhere env i n (h s) g time in
  Rm m' n' /\ out' = outcome_there t a h out.
Proof.
  intros H Hg. unfold resolve_collision_with_environment.
  rewrite (me_footprint _ _ _ _ _ Em _ _ H), impact_there. destruct (compute_impact_geometry sh (md_footprint md m) s) as [[nr ip]|]; [|split; [exact H|reflexivity]].
  rewrite (me_pose _ _ _ _ _ Em _ _ H), !there_translation, !there_sub.
  rewrite (me_velocity _ _ _ _ _ Em _ _ H). destruct (md_velocity md m) as [va wa]. cbn [turn_velocity fst snd].
  rewrite !turn_velocity_P. set (ra := vsub ip _). set (rel := velocity_of_P_given_A va wa ra).
  assert (Es : match option_map Tu nr with None => false | Some n => if Rlt_dec (vdot (Tu rel) n) 0 then true else false end = match nr with None => false | Some n => if Rlt_dec (vdot rel n) 0 then true else false end).
  { destruct nr as [k|]; [|reflexivity]. cbn [option_map]. rewrite turn_dot. reflexivity. }
  rewrite Es. destruct (match nr with None => false | Some n => if Rlt_dec (vdot rel n) 0 then true else false end); [split; [exact H|reflexivity]|].
  pose proof (me_collided _ _ _ _ _ Em _ _ H) as Ca. rewrite (locations_there _ _ _ Ca). destruct (impact_locations_from_polygons sh md (md_set_collided md m) _) as [la|]; [|split; [exact Ca|reflexivity]].
  rewrite (me_geometry _ _ _ _ _ Em _ _ Ca). rewrite (se_is_polygon _ _ _ _ E), (se_to_polygon _ _ _ _ E).
  assert (Ip : (if is_polygon sh s then Ok (h s) else match to_polygon sh s with Ok y => Ok (h y) | Err e => Err e end) = match (if is_polygon sh s then Ok s else to_polygon sh s) with Ok y => Ok (h y) | Err e => Err e end) by (destruct (is_polygon sh s); reflexivity).
  rewrite Ip. clear Ip Es.
  set (after := match nr with None => None | Some n => _ end).
  match goal with |- context [md_set_velocity md (md_set_collided md n) ?x] => replace x with (option_map (turn_velocity a) after) end.
  2:{ unfold after. destruct nr as [k|]; [|reflexivity]. cbn [option_map turn_velocity fst snd]. rewrite !turn_after, !turn_rot_after.
      assert (Ej : forall q v r, compute_impulse_response (Tu k) (Tu v) (Tu r) q (md_geometry md (md_set_collided md m)) g = compute_impulse_response k v r (1, 1) (md_geometry md (md_set_collided md m)) g).
      { intros q v r. unfold compute_impulse_response. rewrite Hg, turn_dot, turn_cross. reflexivity. }
      rewrite !Ej. reflexivity. }
  pose proof (me_set_velocity _ _ _ _ _ Em _ _ after Ca) as Cs.
  destruct (if is_polygon sh s then Ok s else to_polygon sh s) as [bp|]; [|split; [exact Cs|reflexivity]]. split; [exact Cs|].
  assert (Z : Tu (0, 0) = (0, 0)) by (vv; apply f_equal2; ring).
  destruct after as [[va' wa']|]; unfold outcome_there, report_there, player_there, turn_velocity; cbn [option_map fst snd map pr_locations pr_footprint pr_velocity pr_velocity_after pr_energy_delta pr_at_fault rep_players rep_point rep_normal rep_time]; rewrite ?turn_energy, ?Z; reflexivity.
Qed.
End P.
