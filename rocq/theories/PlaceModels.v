(** The models of the package are seen, and move, the same everywhere. *)
From Coq Require Import String Reals List Bool Arith Lra Lia FunctionalExtensionality.
From Verif Require Import Base R2 GeoModel DataModel LaneModel BodyModel DynModel DrawModel CollModel BuildModel ImpactModel LoopModel BodySpec DataSpec BuildSpec MoveSpec LoopSpec BuildMain MoveMain LoopMain PlaceSpec PlaceProofs.
Import ListNotations.
Open Scope R_scope.
Local Open Scope string_scope.
Local Arguments aset {K V} eqb d k v : simpl nomatch.
Local Arguments aget {K V} eqb d k : simpl nomatch.

Section M.
Context (t : vec) (a : R).
Notation mt := (model_there t a).

Lemma placed_there v : placed t a v = there t a v.
Proof. unfold placed, there, in_world. apply f_equal2; ring. Qed.

(** Attributes of a moved state. *)
Lemma state_facts k o o' : state_there t a k o o' -> exists p psi,
  has o "x" (fst p) /\ has o "y" (snd p) /\ has o "psi" psi /\ has o' "x" (fst (there t a p)) /\ has o' "y" (snd (there t a p)) /\ has o' "psi" (psi + a).
Proof.
  unfold has. destruct k; cbn [state_there]; try contradiction.
  1: intros (x & -> & ->); exists (v_x x, v_y x), (v_psi x).
  1: { rewrite <- placed_there. repeat split. }
  1: intros (x & l & Hl & -> & ->); exists (d_x x, d_y x), (d_psi x); rewrite <- placed_there; repeat split.
  1: intros (x & -> & ->); exists (s_x x, s_y x), (s_psi x); rewrite <- placed_there; repeat split.
  1: intros (x & -> & ->); exists (w_x x, w_y x), (w_psi x); rewrite <- placed_there; repeat split.
  1: intros (x & -> & ->); exists (s_x x, s_y x), (s_psi x); rewrite <- placed_there; repeat split.
  1: intros (x & -> & ->); exists (s_x x, s_y x), (s_psi x); rewrite <- placed_there; repeat split.
  1: intros (x & -> & ->); exists (r_x x, r_y x), (r_psi x); rewrite <- placed_there; repeat split.
Qed.

Lemma stands_there m n : mt m n -> exists p psi, stands m p psi /\ stands n (there t a p) (psi + a).
Proof. intros (_ & _ & _ & S). destruct (state_facts _ _ _ S) as (p & psi & H). exists p, psi. unfold stands. tauto. Qed.

Context (union : list (list vec) -> list vec) (quad : nat) (valid : list vec -> bool) (middle : list vec -> vec).
Context (Hv : forall r, valid (map (there t a) r) = valid r) (Hc : forall r, r <> [] -> middle (map (there t a) r) = there t a (middle r)).
Notation md := (seen union quad valid middle).

Lemma rigid m n : mt m n -> carried (map (there t a)) (get_footprint union quad valid m) (get_footprint union quad valid n) /\
  carried (map (fun part => (fst part, map (there t a) (snd part)))) (get_mesh union quad valid middle m) (get_mesh union quad valid middle n).
Proof.
  intro H. destruct (stands_there m n H) as (p & psi & S1 & S2). apply (C115_rigid_pf union quad valid middle m n p psi t a S1 S2); try assumption.
  destruct H as ((K1 & K2 & K3 & K4 & K5 & K6) & _). split; [exact K1|]. split; assumption.
Qed.

Lemma rot_there psi v : rot (psi + a) v = turn a (rot psi v).
Proof. unfold rot, turn, in_world. cbn [fst snd]. rewrite cos_plus, sin_plus. apply f_equal2; ring. Qed.
Lemma rot_back psi v : rot (- (psi + a)) (turn a v) = rot (- psi) v.
Proof.
  unfold rot, turn, in_world. cbn [fst snd]. replace (- (psi + a)) with (- psi + - a) by ring. rewrite cos_plus, sin_plus, cos_neg, sin_neg, !cos_neg, !sin_neg.
  pose proof (sin2_cos2 a) as C. unfold Rsqr in C. destruct v as [x y]. cbn [fst snd].
  apply f_equal2.
  - transitivity ((x * cos psi + y * sin psi) * (sin a * sin a + cos a * cos a)); [ring|rewrite C; ring].
  - transitivity ((y * cos psi - x * sin psi) * (sin a * sin a + cos a * cos a)); [ring|rewrite C; ring].
Qed.

Lemma velocity_there m n : mt m n -> velocity n = match velocity m with Ok v => Ok (turn_velocity a v) | Err e => Err e end.
Proof.
  intros ((K1 & K2 & K3 & K4 & K5 & K6) & _ & _ & S). unfold velocity. rewrite K1, K3.
  destruct (mo_kind m) eqn:K; cbn [state_there] in S; try contradiction; unfold get_velocity.
  1: destruct S as (x & -> & ->); cbn; rewrite rot_there; reflexivity.
  1: destruct S as (x & l & _ & -> & ->); cbn; rewrite rot_there; reflexivity.
  1: destruct S as (x & -> & ->); cbn; rewrite rot_there; reflexivity.
  1: cbn; unfold turn_velocity, turn, in_world; cbn; apply f_equal; apply f_equal2; [apply f_equal2; ring|reflexivity].
  all: destruct S as (x & -> & ->); cbn; rewrite rot_there; reflexivity.
Qed.

Lemma with_velocity_there m n v w : mt m n -> mt (or_else m (with_velocity m v w)) (or_else n (with_velocity n (turn a v) w)).
Proof.
  intros ((K1 & K2 & K3 & K4 & K5 & K6) & C & P & S). unfold with_velocity. rewrite K1.
  assert (Go : forall o o', state_there t a (mo_kind m) o o' -> mt (set_state m o) (set_state n o')).
  { intros o o' H. split; [repeat split; assumption|]. split; [exact C|]. split; [exact P|exact H]. }
  destruct (mo_kind m) eqn:K; cbn [state_there] in S; try contradiction; unfold set_velocity, to_model_frame.
  1: destruct S as (x & E1 & E2); rewrite E1, E2; cbn -[turn rot]; rewrite rot_back; apply Go; exists (mkV (v_x x) (v_y x) (v_psi x) (fst (rot (- v_psi x) v)) (v_delta x)); split; reflexivity.
  1: destruct S as (x & l & Hl & E1 & E2); rewrite E1, E2; cbn -[turn rot]; rewrite rot_back; apply Go; exists (mkD (d_x x) (d_y x) (d_psi x) (fst (rot (- d_psi x) v)) (snd (rot (- d_psi x) v)) (d_dpsi x) (d_delta x)), [("dtheta", Num w)]; split; [right; eexists; reflexivity|]; destruct Hl as [->|[w' ->]]; split; reflexivity.
  1: destruct S as (x & E1 & E2); rewrite E1, E2; cbn -[turn rot]; rewrite rot_back; apply Go; exists (mk6 (s_x x) (s_y x) (s_psi x) w (snd (rot (- s_psi x) v)) (s_dpsi x)); split; reflexivity.
  1: { cbn. apply Go. cbn. exact S. }
  1,2: destruct S as (x & E1 & E2); rewrite E1, E2; cbn -[turn rot]; rewrite rot_back; apply Go; exists (mk6 (s_x x) (s_y x) (s_psi x) (fst (rot (- s_psi x) v)) (snd (rot (- s_psi x) v)) w); split; reflexivity.
  1: destruct S as (x & E1 & E2); rewrite E1, E2; cbn -[turn rot]; rewrite rot_back; apply Go; exists (mk8 (r_x x) (r_y x) (r_psi x) (fst (rot (- r_psi x) v)) (snd (rot (- r_psi x) v)) w (r_ang x) (r_m x)); split; reflexivity.
Qed.

Lemma seen_there : models_everywhere t a (map (there t a)) md mt.
Proof.
  constructor.
  - intros m n H. cbn. destruct (rigid m n H) as [G _]. destruct (get_footprint union quad valid m), (get_footprint union quad valid n); cbn in *; try contradiction; [exact G|reflexivity].
  - intros m n H. cbn. destruct (rigid m n H) as [_ G]. destruct (get_mesh union quad valid middle m), (get_mesh union quad valid middle n); cbn in *; try contradiction; [exact G|reflexivity].
  - intros m n H. cbn. destruct (stands_there m n H) as (p & psi & (X1 & X2 & X3) & (Y1 & Y2 & Y3)). unfold get_pose, getnum. unfold has in *. rewrite X1, X2, X3, Y1, Y2, Y3. cbn [bind DataModel.bind or_else].
    unfold there_pose, mmul, SE2_from_translation_angle, there, in_world. cbn [fst snd m00 m01 m02 m10 m11 m12]. rewrite cos_plus, sin_plus. f_equal; ring.
  - intros m n H. cbn. rewrite (velocity_there m n H). destruct (velocity m) as [v|]; cbn; [reflexivity|]. unfold turn_velocity, turn, in_world. cbn. apply f_equal2; [apply f_equal2; ring|reflexivity].
  - intros m n ((K1 & K2 & K3 & K4 & K5 & K6) & _). cbn. rewrite K3. reflexivity.
  - intros m n ((K1 & K2 & K3 & K4 & K5 & K6) & C & P & S). cbn. split; [repeat split; assumption|]. split; [reflexivity|]. split; [exact P|exact S].
  - intros m n [[v w]|] H; cbn; [apply with_velocity_there; exact H|exact H].
Qed.
End M.

(** *** update *)
Lemma update_state solve m o u dt : as_ndarray (state_class (mo_kind m)) (mo_state m) = as_ndarray (state_class (mo_kind m)) o ->
  model_update solve m u dt = model_update solve (set_state m o) u dt.
Proof.
  intro E. unfold model_update. cbn [mo_kind mo_state set_state]. rewrite E.
  assert (I : ivp_rates (set_state m o) = ivp_rates m).
  { extensionality y. unfold ivp_rates. change (stateactions_from_array (set_state m o) y) with (stateactions_from_array m y). cbn [mo_kind set_state].
    assert (D : forall x v, dynamics (set_state m o) x v = dynamics m x v).
    { intros x v. unfold dynamics. cbn [mo_kind mo_params mo_geo mo_tyres mo_collided mo_state set_state]. destruct (mo_kind m) eqn:K, (mo_params m); try reflexivity; cbn [state_class] in E; unfold to_dst, to_st6; rewrite E; reflexivity. }
    destruct (stateactions_from_array m y) as [[x v]|]; cbn [bind fst snd]; [rewrite D|]; reflexivity. }
  rewrite I. destruct (as_ndarray _ o) as [l0|]; cbn [bind]; [|reflexivity]. destruct (as_ndarray _ u) as [l1|]; cbn [bind]; [|reflexivity]. destruct (solve _ _ _) as [l2|]; cbn [bind]; [|reflexivity].
  change (stateactions_from_array (set_state m o) l2) with (stateactions_from_array m l2). destruct (stateactions_from_array m l2); reflexivity.
Qed.

Lemma cmd2 c u f g : c_as c = [f; g] -> (exists x y, has u f x /\ has u g y) \/ exists e, as_ndarray c u = Err e.
Proof.
  unfold has, as_ndarray. intros ->. cbn -[getattr]. destruct (getattr u f) as [[x|?]|e] eqn:F; cbn; try (right; eexists; reflexivity).
  destruct (getattr u g) as [[y|?]|e] eqn:G; cbn; try (right; eexists; reflexivity). left. exists x, y. split; reflexivity.
Qed.
Lemma cmd3 c u f g h : c_as c = [f; g; h] -> (exists x y z, has u f x /\ has u g y /\ has u h z) \/ exists e, as_ndarray c u = Err e.
Proof.
  unfold has, as_ndarray. intros ->. cbn -[getattr]. destruct (getattr u f) as [[x|?]|e] eqn:F; cbn; try (right; eexists; reflexivity).
  destruct (getattr u g) as [[y|?]|e] eqn:G; cbn; try (right; eexists; reflexivity).
  destruct (getattr u h) as [[z|?]|e] eqn:H; cbn; try (right; eexists; reflexivity). left. exists x, y, z. repeat split; reflexivity.
Qed.

Lemma update_bad solve m u dt l e : as_ndarray (state_class (mo_kind m)) (mo_state m) = Ok l -> as_ndarray (command_class (mo_kind m)) u = Err e -> model_update solve m u dt = Err e.
Proof. intros A B. unfold model_update. rewrite A, B. reflexivity. Qed.

Lemma updates1 {X U} (P : plant X U) tab c st u hs : updates P tab c st [(u, hs)] = DynModel.update P tab c st u hs.
Proof. cbn. destruct (DynModel.update P tab c st u hs); reflexivity. Qed.

Section U.
Context (t : vec) (a : R).
Definition updated (r r' : result model) : Prop := match r with Ok m' => exists n', r' = Ok n' /\ model_there t a m' n' | Err e => r' = Err e end.

Lemma bad_there solve m n u dt l l' e : mo_kind n = mo_kind m -> as_ndarray (state_class (mo_kind m)) (mo_state m) = Ok l -> as_ndarray (state_class (mo_kind m)) (mo_state n) = Ok l' ->
  as_ndarray (command_class (mo_kind m)) u = Err e -> updated (model_update solve m u dt) (model_update solve n u dt).
Proof. intros K A A' B. rewrite (update_bad _ m u dt l e A B), (update_bad _ n u dt l' e); rewrite ?K; try assumption. reflexivity. Qed.

Lemma moved {X} (F : X -> obj) (at_ : X -> X) m n r r' o : model_there t a m n -> (forall x, state_there t a (mo_kind m) (F x) (F (at_ x))) ->
  moves_to m (option_map F o) r -> moves_to n (option_map F (option_map at_ o)) r' -> updated r r'.
Proof.
  intros (K & C & P & S) HF. destruct o as [x|]; cbn; intros -> ->; cbn; [|reflexivity]. eexists. split; [reflexivity|].
  split; [exact K|]. split; [exact C|]. split; [exact P|]. apply HF.
Qed.

Lemma update_there tab hs m n u dt : model_there t a m n -> updated (model_update (rk_array tab hs) m u dt) (model_update (rk_array tab hs) n u dt).
Proof.
  intros H. pose proof H as ((K1 & K2 & K3 & K4 & K5 & K6) & C & P & S). unfold proper in P. unfold moves_to.
  destruct (mo_kind m) eqn:K; cbn [state_there] in S; try contradiction.
  - destruct S as (x & E1 & E2). destruct P as (g & p & vx & acc & P1 & P2 & P3).
    destruct (cmd2 cVehicleCommands u "acc" "ddelta" eq_refl) as [(c1 & c2 & B1 & B2)|(e & B)].
    + refine (moved vst_obj (vst_at t a) m n _ _ (DynModel.update (vehicle_plant g p) tab (mo_collided m) x (mkVCm c1 c2) hs) H _ (C122_vehicle_pf m g vx acc p x u c1 c2 tab hs dt K P1 P2 P3 E1 B1 B2) _).
      * intro y. rewrite K. exists y. split; reflexivity.
      * rewrite <- updates1, <- C104_vehicle_pf, updates1, <- C. apply (C122_vehicle_pf n g vx acc p); congruence || (rewrite ?K4; exact P1) || (rewrite ?K3; assumption).
    + refine (bad_there (rk_array tab hs) _ _ u dt _ _ e _ _ _ _); cbn [mo_kind mo_state set_state]; rewrite ?K1, ?K, ?E1, ?E2; reflexivity || exact B.
  - destruct S as (x & l & Hl & E1 & E2). destruct P as (g & p & vx & acc & pf & pr & P1 & P2 & P3 & P4).
    assert (A : forall y, as_ndarray cVehicleStateDyn (with_extra (dst_obj y) l) = as_ndarray cVehicleStateDyn (dst_obj y)) by (intro y; reflexivity).
    rewrite (update_state _ m (dst_obj x)), (update_state _ n (dst_obj (dst_at t a x))) by (rewrite ?K1, ?K, ?E1, ?E2; apply A).
    assert (H' : model_there t a (set_state m (dst_obj x)) (set_state n (dst_obj (dst_at t a x)))).
    { destruct H as (G1 & G2 & G3 & _). split; [exact G1|]. split; [exact G2|]. split; [exact G3|]. cbn [mo_kind mo_state set_state]. rewrite K. exists x, (@nil (string * pv)). split; [left; reflexivity|]. split; reflexivity. }
    destruct (cmd2 cVehicleCommands u "acc" "ddelta" eq_refl) as [(c1 & c2 & B1 & B2)|(e & B)].
    + refine (moved dst_obj (dst_at t a) _ _ _ _ (DynModel.update (vehicle_dyn_plant g p pf pr) tab (mo_collided m) x (mkVCm c1 c2) hs) H' _ (C122_vehicle_dyn_pf (set_state m (dst_obj x)) g vx acc p pf pr x u c1 c2 tab hs dt K P1 P2 P3 P4 eq_refl B1 B2) _).
      * intro y. cbn [mo_kind set_state]. rewrite K. exists y, (@nil (string * pv)). split; [left; reflexivity|]. split; reflexivity.
      * rewrite <- updates1, <- C104_vehicle_dyn_pf, updates1, <- C. apply (C122_vehicle_dyn_pf (set_state n (dst_obj (dst_at t a x))) g vx acc p); cbn [mo_kind mo_params mo_geo mo_tyres mo_state mo_collided set_state]; congruence || (rewrite ?K4; exact P1) || (rewrite ?K3; assumption) || reflexivity.
    + refine (bad_there (rk_array tab hs) _ _ u dt _ _ e _ _ _ _); cbn [mo_kind mo_state set_state]; rewrite ?K1, ?K, ?E1, ?E2; reflexivity || exact B.
  - destruct S as (x & E1 & E2). destruct P as ([vl vh] & [al ah] & w & P1).
    destruct (cmd2 cPedestrianCommands u "acc" "dpsi" eq_refl) as [(c1 & c2 & B1 & B2)|(e & B)].
    + pose (p := mkPP (mkMP vl vh al ah) w).
      assert (L : same_limits (vl, vh) (al, ah) (pp_m p)) by (split; reflexivity).
      refine (moved (st6_obj "PedestrianState") (st6_at t a) m n _ _ (DynModel.update (pedestrian_plant p) tab (mo_collided m) x (mkPC c1 c2) hs) H _ (C122_pedestrian_pf m _ _ p x u c1 c2 tab hs dt K P1 L E1 B1 B2) _).
      * intro y. rewrite K. exists y. split; reflexivity.
      * rewrite <- updates1, <- C104_pedestrian_pf, updates1, <- C. apply (C122_pedestrian_pf n (vl, vh) (al, ah) p); congruence || (rewrite ?K4; exact P1) || assumption.
    + refine (bad_there (rk_array tab hs) _ _ u dt _ _ e _ _ _ _); cbn [mo_kind mo_state set_state]; rewrite ?K1, ?K, ?E1, ?E2; reflexivity || exact B.
  - destruct S as (x & E1 & E2). destruct P as (vx & acc & [lo hi] & tt & wb & wr & rad & P1 & P2).
    destruct (cmd2 cDiffDriveCommands u "omega_l" "omega_r" eq_refl) as [(c1 & c2 & B1 & B2)|(e & B)].
    + refine (moved st3_obj (st3_at t a) m n _ _ (DynModel.update (diff_drive_plant wb wr lo hi) tab (mo_collided m) x (mkWC c1 c2) hs) H _ (C122_diff_drive_pf m vx acc lo hi tt wb wr rad x u c1 c2 tab hs dt K P1 P2 E1 B1 B2) _).
      * intro y. rewrite K. exists y. split; reflexivity.
      * rewrite <- updates1, <- C104_diff_drive_pf, updates1, <- C. apply (C122_diff_drive_pf n vx acc lo hi tt wb wr rad); congruence || (rewrite ?K4; exact P1) || (rewrite ?K3; assumption).
    + refine (bad_there (rk_array tab hs) _ _ u dt _ _ e _ _ _ _); cbn [mo_kind mo_state set_state]; rewrite ?K1, ?K, ?E1, ?E2; reflexivity || exact B.
  - destruct S as (x & E1 & E2). destruct P as ([vl vh] & [al ah] & [lo hi] & g & tt & ms & iz & P1 & P2 & P3 & P4).
    destruct (cmd2 cSpacecraftCommands u "acc_left" "acc_right" eq_refl) as [(c1 & c2 & B1 & B2)|(e & B)].
    + pose (p := mkMP vl vh al ah).
      assert (L : same_limits (vl, vh) (al, ah) p) by (split; reflexivity).
      refine (moved (st6_obj "SpacecraftState") (st6_at t a) m n _ _ (DynModel.update (spacecraft_plant p lo hi (sg_w_half g) ms iz) tab (mo_collided m) x (mkSC c1 c2) hs) H _ (C122_spacecraft_pf m _ _ lo hi p g tt ms iz x u c1 c2 tab hs dt K P1 L P2 P3 P4 E1 B1 B2) _).
      * intro y. rewrite K. exists y. split; reflexivity.
      * rewrite <- updates1, <- C104_spacecraft_pf, updates1, <- C. apply (C122_spacecraft_pf n (vl, vh) (al, ah) lo hi p g tt); congruence || (rewrite ?K4; exact P1) || (rewrite ?K3; assumption) || assumption.
    + refine (bad_there (rk_array tab hs) _ _ u dt _ _ e _ _ _ _); cbn [mo_kind mo_state set_state]; rewrite ?K1, ?K, ?E1, ?E2; reflexivity || exact B.
  - destruct S as (x & E1 & E2). destruct P as ([vl vh] & [al ah] & [lo hi] & dd & P1).
    destruct (cmd3 cDynObstacleCommands u "acc_x" "acc_y" "acc_psi" eq_refl) as [(c1 & c2 & c3 & B1 & B2 & B3)|(e & B)].
    + pose (p := mkMP vl vh al ah).
      assert (L : same_limits (vl, vh) (al, ah) p) by (split; reflexivity).
      refine (moved (st6_obj "DynObstacleState") (st6_at t a) m n _ _ (DynModel.update (obstacle_plant p lo hi) tab (mo_collided m) x (mkOC c1 c2 c3) hs) H _ (C122_obstacle_pf m _ _ lo hi dd p x u c1 c2 c3 tab hs dt K P1 L E1 B1 B2 B3) _).
      * intro y. rewrite K. exists y. split; reflexivity.
      * rewrite <- updates1, <- C104_obstacle_pf, updates1, <- C. apply (C122_obstacle_pf n (vl, vh) (al, ah) lo hi dd p); congruence || (rewrite ?K4; exact P1) || assumption.
    + refine (bad_there (rk_array tab hs) _ _ u dt _ _ e _ _ _ _); cbn [mo_kind mo_state set_state]; rewrite ?K1, ?K, ?E1, ?E2; reflexivity || exact B.
  - destruct S as (x & E1 & E2). destruct P as (vx & acc & mv & ct & [fl fh] & [dl dh] & [ddl ddh] & g & tt & iz & P1 & P2 & P3).
    destruct (cmd2 cSpaceshipCommands u "thrust" "ddelta" eq_refl) as [(c1 & c2 & B1 & B2)|(e & B)].
    + pose (p := mkRP mv ct fl fh dl dh ddl ddh).
      refine (moved (st8_obj "SpaceshipState" "delta") (st8_at t a) m n _ _ (DynModel.update (spaceship_plant p iz (hg_l_r g)) tab (mo_collided m) x (mkSSC c1 c2) hs) H _ (C122_spaceship_pf m vx acc p g tt iz x u c1 c2 tab hs dt K P1 P2 P3 E1 B1 B2) _).
      * intro y. rewrite K. exists y. split; reflexivity.
      * rewrite <- updates1, <- C104_spaceship_pf, updates1, <- C. apply (C122_spaceship_pf n vx acc p g tt iz); congruence || (rewrite ?K4; exact P1) || (rewrite ?K3; assumption).
    + refine (bad_there (rk_array tab hs) _ _ u dt _ _ e _ _ _ _); cbn [mo_kind mo_state set_state]; rewrite ?K1, ?K, ?E1, ?E2; reflexivity || exact B.
Qed.
End U.
