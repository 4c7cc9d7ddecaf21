(** A concrete world for the examples: footprints are unit-free blobs
    identified with their centre; two blobs always meet in the vertical segment of
    half-length 1 around the midpoint of their centres. *)
From Coq Require Import Reals Lra Psatz List Bool Arith.
From Verif Require Import Base R2 GeoModel AssocLemmas CollModel CollSpec CollProofs.
Import ListNotations.
Open Scope R_scope.

Definition ex_sh (inside : bool) : shapely vec :=
  mkShp (fun _ _ => false) (fun _ _ => inside) (fun _ _ => true) (fun a => a)
        (fun a b => ILine [(fst (midpoint a b), snd (midpoint a b) + 1); (fst (midpoint a b), snd (midpoint a b) - 1)])
        (fun _ _ => false) (fun _ => true) (fun a => Ok a).

Record body := mkB { b_c : vec; b_v : option (vec * R); b_g : geometry; b_hit : bool }.
Definition ex_md : model_ops (Sh := vec) body nat :=
  mkMO b_c (fun b => [(0%nat, b_c b)]) (fun b => SE2_from_translation_angle (b_c b) 0)
       (fun b => match b_v b with Some x => x | None => ((0, 0), 0) end) b_g
       (fun b => mkB (b_c b) (b_v b) (b_g b) true) (fun b v => mkB (b_c b) v (b_g b) (b_hit b)).

Lemma ex_flag_only : flag_only ex_md.
Proof. intro m. cbn. auto. Qed.
Lemma ex_cog b : cog ex_md b = b_c b.
Proof. unfold cog, translation_from_SE2, ex_md. cbn. symmetry. apply surjective_pairing. Qed.

Lemma ex_geom ca cb : fst ca < fst cb -> compute_impact_geometry (ex_sh false) ca cb = Ok (Some (1, 0), midpoint ca cb).
Proof.
  intro H. unfold compute_impact_geometry, find_intersection_points. cbn [ex_sh touches contains intersection contains_pt filter orb negb length Nat.eqb centroid].
  destruct ca as [x y], cb as [x' y']. cbn [fst snd] in *. unfold normalize.
  assert (N : vnorm (- snd (vsub (fst (midpoint (x, y) (x', y')), snd (midpoint (x, y) (x', y')) - 1) (fst (midpoint (x, y) (x', y')), snd (midpoint (x, y) (x', y')) + 1)),
       fst (vsub (fst (midpoint (x, y) (x', y')), snd (midpoint (x, y) (x', y')) - 1) (fst (midpoint (x, y) (x', y')), snd (midpoint (x, y) (x', y')) + 1))) = 2).
  { unfold vnorm, vdot, vsub. cbn [fst snd]. match goal with |- sqrt ?e = _ => replace e with (2 * 2) by ring end. apply sqrt_square. lra. }
  rewrite N. destruct (Req_EM_T 2 0) as [E|_]; [lra|].
  match goal with |- Ok (if Rlt_dec (vdot ?r ?n) 0 then _ else Some ?n, _) = _ => replace n with (1, 0) by (unfold vscale, vsub; cbn [fst snd]; f_equal; field) end.
  destruct (Rlt_dec _ 0) as [L|L].
  - exfalso. unfold vdot, vsub, midpoint, vscale, vadd in L. cbn [fst snd] in L. lra.
  - f_equal. f_equal. unfold midpoint, vscale, vadd. cbn [fst snd]. f_equal; field.
Qed.

(** A car of mass 1 and inertia 1. *)
Definition ex_body (c v : vec) (w e : R) : body := mkB c (Some (v, w)) (mkG (Fin 1) (Fin 1) e) false.

Lemma ex_resolve ca va wa cb vb wb e1 e2 sc t : fst ca < fst cb ->
  0 <= vdot (vsub (velocity_of_P_given_A va wa (vsub (midpoint ca cb) ca)) (velocity_of_P_given_A vb wb (vsub (midpoint ca cb) cb))) (1, 0) ->
  exists ms' rep va' wa' vb' wb',
    two_bodies ex_md (ex_sh false) 1 2 [(1%nat, ex_body ca va wa e1); (2%nat, ex_body cb vb wb e2)] sc t ms' rep 1 1 e1 1 1 e2 ca cb (1, 0) (midpoint ca cb) va vb va' vb' wa wb wa' wb'.
Proof.
  intros Hc Hd.
  destruct (resolve_fwd (ex_sh false) ex_md 1 2 [(1%nat, ex_body ca va wa e1); (2%nat, ex_body cb vb wb e2)] sc t (ex_body ca va wa e1) (ex_body cb vb wb e2) (1, 0) (midpoint ca cb) [(0%nat, ca)] [(0%nat, cb)] va wa vb wb
    ex_flag_only ltac:(discriminate) eq_refl eq_refl (ex_geom ca cb Hc) eq_refl eq_refl ltac:(rewrite !ex_cog; exact Hd) eq_refl eq_refl) as (ms' & rep & H & Hn & HP).
  assert (S1 : solid ex_md (ex_body ca va wa e1) 1 1 e1) by (split; [reflexivity|split; lra]).
  assert (S2 : solid ex_md (ex_body cb vb wb e2) 1 1 e2) by (split; [reflexivity|split; lra]).
  destruct (resolve_bodies (ex_sh false) ex_md 1 2 _ sc t ms' rep (ex_body ca va wa e1) (ex_body cb vb wb e2) 1 1 e1 1 1 e2 (1, 0) (midpoint ca cb) va wa vb wb
    ex_flag_only ltac:(discriminate) H eq_refl eq_refl S1 S2 Hn HP eq_refl eq_refl) as (_ & _ & _ & pa & pb & E1 & E2 & E3 & E4 & E5 & _).
  exists ms', rep. eexists; eexists; eexists; eexists. split; [discriminate|]. split; [exact H|]. split.
  { exists (ex_body ca va wa e1), (ex_body cb vb wb e2). rewrite !ex_cog. split; [reflexivity|]. split; [reflexivity|]. split; [exact S1|]. split; [exact S2|]. repeat split. }
  split; [exact Hn|]. split; [exact HP|].
  split; [exists pa; rewrite E1; split; [reflexivity|exact E2]|]. split; [exists pb; rewrite E1; split; [reflexivity|exact E3]|].
  split; [exists pa; rewrite E1; split; [reflexivity|exact E4]|exists pb; rewrite E1; split; [reflexivity|exact E5]].
Qed.

Lemma ex_env ca va wa e1 cb gb t : fst ca < fst cb ->
  let ra := vsub (midpoint ca cb) ca in let rel := velocity_of_P_given_A va wa ra in
  0 <= vdot rel (1, 0) ->
  let j := compute_impulse_response (1, 0) rel ra (1, 1) (mkG (Fin 1) (Fin 1) e1) gb in
  exists rep, resolve_collision_with_environment (ex_sh false) ex_md 9%nat 0%nat 1%nat (ex_body ca va wa e1) cb gb t =
    (mkB ca (Some (velocity_after_collision (1, 0) va (Fin 1) j, rot_velocity_after_collision ra (1, 0) wa (Fin 1) j)) (mkG (Fin 1) (Fin 1) e1) true, Ok (Some rep)) /\
    rep_normal rep = Some (1, 0) /\ rep_point rep = Some (midpoint ca cb) /\ before rep 1 va wa /\
    afterwards rep 1 (velocity_after_collision (1, 0) va (Fin 1) j) (rot_velocity_after_collision ra (1, 0) wa (Fin 1) j).
Proof.
  intros Hc ra rel Hd j. unfold resolve_collision_with_environment. change (md_footprint ex_md (ex_body ca va wa e1)) with ca. rewrite (ex_geom ca cb Hc).
  change (translation_from_SE2 (md_pose ex_md (ex_body ca va wa e1))) with (cog ex_md (ex_body ca va wa e1)). rewrite ex_cog. change (b_c (ex_body ca va wa e1)) with ca.
  change (md_velocity ex_md (ex_body ca va wa e1)) with (va, wa). cbv beta iota zeta. fold ra.
  destruct (Rlt_dec _ 0) as [L|_]; [unfold rel in Hd; lra|].
  cbn [impact_locations_from_polygons filter intersects ex_sh ex_md md_mesh md_set_collided ex_body b_c b_v b_g b_hit md_geometry md_set_velocity is_polygon g_m g_Iz].
  unfold impact_locations_from_polygons. cbn [filter intersects ex_sh ex_md md_mesh b_c]. eexists. split; [reflexivity|]. cbn [rep_normal rep_point]. split; [reflexivity|]. split; [reflexivity|].
  split; eexists; (split; [reflexivity|reflexivity]).
Qed.
